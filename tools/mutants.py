"""Wrong programs: edits of the model that are bugs somebody could have made in the code.

Each entry: (file, definition, old text, new text, property meant to notice, what it means)."""

M = []
def mut(file, defn, old, new, claim, what):
    M.append((file, defn, old, new, claim, what))

# ---------------------------------------------------------------- States.v
mut("States.v", "update_from_msg", "if Z.ltb date (autocrypt_timestamp l) then Ret tt\n  else\n    let dup := match get_message_entry l id with",
    "if Z.leb date (autocrypt_timestamp l) then Ret tt\n  else\n    let dup := match get_message_entry l id with", "C05",
    "a mail with the same date as the recorded key is ignored")
mut("States.v", "update_from_msg", "if Z.ltb date (autocrypt_timestamp l) then Ret tt\n  else\n    let dup := match get_message_entry l id with",
    "if Z.ltb date (last_seen l) then Ret tt\n  else\n    let dup := match get_message_entry l id with", "C05",
    "compares with last_seen instead of autocrypt_timestamp")
mut("States.v", "update_from_msg", "if Z.ltb date (autocrypt_timestamp l) then Ret tt\n  else\n    let dup := match get_message_entry l id with",
    "if false then Ret tt\n  else\n    let dup := match get_message_entry l id with", "C04",
    "older mails overwrite newer keys")
mut("States.v", "update_from_msg", "if dup then Ret tt\n    else\n      let kd'", "if false then Ret tt\n    else\n      let kd'", "C07",
    "the same mail processed twice is recorded twice")
mut("States.v", "update_from_msg", "Z.eqb (me_date e) date && eq_opt (me_keydata e) kd\n                           && eq_opt (me_kh e) kh", "eq_opt (me_keydata e) kd\n                           && eq_opt (me_kh e) kh", "C07",
    "duplicate detection ignores the date")
mut("States.v", "update_from_msg", "if Z.ltb (last_seen l) date then\n          e <-", "if Z.leb (last_seen l) date then\n          e <-", "C06",
    "a mail without header is recorded again at the same date")
mut("States.v", "update_from_msg", "if Z.ltb (last_seen l) date then\n          e <-", "if Z.ltb (autocrypt_timestamp l) date then\n          e <-", "C06",
    "a mail without header moves last_seen back")
mut("States.v", "update_from_msg", "e <- lift (mk_msg_entry id date (Some (L \"nopreference\")) [] []) ;;", "e <- lift (mk_msg_entry id (last_seen l) (Some (L \"nopreference\")) [] []) ;;", "C06",
    "a mail without header is recorded with the old date")
mut("States.v", "update_from_msg_gossip", "if Z.ltb date (autocrypt_timestamp l) then Ret tt\n  else\n    let kd'", "if Z.ltb date (last_seen l) then Ret tt\n  else\n    let kd'", "C11",
    "gossip is compared with last_seen")
mut("States.v", "update_from_msg_gossip", "if Z.ltb date (autocrypt_timestamp l) then Ret tt\n  else\n    let kd'", "if false then Ret tt\n  else\n    let kd'", "C11",
    "gossip older than the key of the peer is recorded")
mut("States.v", "update_from_msg_gossip", "perform (CAppend chain e).\n\n(** * OwnState", "perform (CAppend chain (EMsg (MsgEntry id date (L \"nopreference\") kd' (match kh with Some h => h | None => [] end)))).\n\n(** * OwnState", "C10",
    "a gossip key is recorded as a direct key")
mut("States.v", "entry_for_encryption", "if has_direct_key l then option_map inl (latest_ac_entry l)\n  else option_map inr (latest_gossip_entry l)",
    "match latest_gossip_entry l with Some e => Some (inr e) | None => option_map inl (latest_ac_entry l) end", "C10",
    "gossip keys take precedence over direct keys")
mut("States.v", "entry_for_encryption", "else option_map inr (latest_gossip_entry l)", "else None", "C11", "gossip keys are never used")
mut("States.v", "latest_ac_entry", "find (fun e => nonempty (me_keydata e)) (msg_entries l)", "find (fun e => nonempty (me_keydata e)) (rev (msg_entries l))", "C05",
    "the first key of a peer is used for ever")
mut("States.v", "latest_ac_entry", "find (fun e => nonempty (me_keydata e)) (msg_entries l)", "hd_error (msg_entries l)", "C06",
    "a mail without header makes the key forgotten")
mut("States.v", "peer_prefer_encrypt", "Some (inl e) => me_pref e | _ => [] end", "Some (inl e) => me_pref e | Some (inr _) => L \"mutual\" | None => [] end", "C14",
    "a gossip key counts as preferring encryption")
mut("States.v", "last_seen", "match latest_msg_entry l with Some e => me_date e | None => 0%Z end.\nDefinition autocrypt", "match latest_ac_entry l with Some e => me_date e | None => 0%Z end.\nDefinition autocrypt", "C05",
    "last_seen is the date of the last mail with a key")
mut("States.v", "match_account", "mem_text l0 [L \"own\"; L \"peer\"] && text_eqb l1 acct", "mem_text l0 [L \"own\"] && text_eqb l1 acct", "C40",
    "deleting an account leaves its peers")
mut("States.v", "match_account", "mem_text l0 [L \"own\"; L \"peer\"] && text_eqb l1 acct", "mem_text l0 [L \"own\"; L \"peer\"] && startswith acct l1", "C40",
    "deleting an account deletes those with a longer name too")
mut("States.v", "match_account", "mem_text l0 [L \"own\"; L \"peer\"] && text_eqb l1 acct", "mem_text l0 [L \"own\"; L \"peer\"; L \"oob\"] && text_eqb l1 acct", "C40",
    "deleting an account deletes its verifications (correct, but not the code)")
mut("States.v", "peer_prefix", "L \"peer:\" ++ acct ++ L \":\"", "L \"peer:\" ++ acct", "C08",
    "peers of accounts a and ab share names")
mut("States.v", "get_peername_list", "sorted (with_prefix (peer_prefix acct) names)", "with_prefix (peer_prefix acct) names", "C48",
    "peers are listed unsorted")
mut("States.v", "get_account_names", "sorted (with_prefix (own_chain []) names)", "with_prefix (own_chain []) names", "C41", "accounts are listed unsorted")
mut("States.v", "change_config", "(match regex with Some r => r | None => cf_regex c end) (cf_mode c)", "(match regex with Some r => r | None => L \".*\" end) (cf_mode c)", "C42",
    "changing another setting resets the email regex")
mut("States.v", "change_config", "if cfg_eqb c' c then Ret false\n    else perform", "if cfg_eqb c' c then Ret true\n    else perform", "C42", "always reports a change")
mut("States.v", "change_config", "if cfg_eqb c' c then Ret false\n    else perform (CAppend (own_chain acct) e) ;;; Ret true", "if cfg_eqb c' c then Ret false\n    else Ret true", "C42", "the change is not stored")
mut("States.v", "mk_cfg_entry", "valid_pref (cf_pref c) && valid_mode (cf_mode c)", "valid_mode (cf_mode c)", "C43", "any prefer-encrypt value is accepted")
mut("States.v", "mk_msg_entry", "Some p => if valid_pref p then Ok", "Some p => if true then Ok", "C09", "any preference is stored for a peer")
mut("States.v", "own_gpghome", "basedir ++ L \"/gpg/\" ++ acct", "basedir ++ L \"/gpg\"", "C44", "all accounts share a key ring")
mut("States.v", "get_verification", "find (fun e => text_eqb addr (ve_addr e)) (verif_entries l)", "hd_error (verif_entries l)", "C47", "verification of any address is returned")
mut("States.v", "append_peer_verification", "perform (CAppend (oob_chain acct) (EVerif (VerifEntry addr pk (L \"peer\"))))", "perform (CAppend (oob_chain acct) (EVerif (VerifEntry addr pk (L \"self\"))))", "C47", "wrong origin recorded")
mut("States.v", "oob_chain", "L \"oob:\" ++ acct.", "L \"oob:\".", "C08", "verifications are shared by all accounts")
mut("States.v", "has_message", "match get_message_entry l id with Some _ => true | None => false end", "match get_gossip_message_entry l id with Some _ => true | None => false end", "C07", "already processed mails are not recognised")
mut("States.v", "set_version", "Some _ => Raise AssertionError\n  | None => perform", "Some _ => perform (CAppend mgr_chain (EACfg (ACfgEntry v)))\n  | None => perform", "C49", "the version is written again")

# ---------------------------------------------------------------- Recommendation.v
R = "Recommendation.v"
mut(R, "timeout", "35 * 24 * 60 * 60 * sec", "35 * 24 * 60 * sec", "C16", "35 days are taken for 35 * 24 minutes")
mut(R, "preliminary", "if Z.ltb timeout (last_seen l - autocrypt_timestamp l)", "if Z.leb timeout (last_seen l - autocrypt_timestamp l)", "C16", "discouraged at exactly 35 days")
mut(R, "preliminary", "if negb (has_direct_key l) then L \"discourage\"", "if negb (has_direct_key l) then L \"available\"", "C17", "gossip keys are as good as direct ones")
mut(R, "preliminary", "if negb (nonempty (public_keyhandle l)) then L \"disable\"", "if negb (nonempty (public_keydata l)) then L \"disable\"", "C15", "availability decided by the key data")
mut(R, "peer_recommendation", "(text_eqb pre (L \"available\") || text_eqb pre (L \"discourage\")) && reply_to_enc", "text_eqb pre (L \"available\") && reply_to_enc", "C19", "no encrypted reply if discouraged")
mut(R, "peer_recommendation", "(text_eqb pre (L \"available\") || text_eqb pre (L \"discourage\")) && reply_to_enc", "reply_to_enc", "C15", "encryption recommended without a key")
mut(R, "peer_recommendation", "&& text_eqb (peer_prefer_encrypt l) (L \"mutual\") then", "|| text_eqb (peer_prefer_encrypt l) (L \"mutual\") then", "C18", "one side preferring encryption is enough")
mut(R, "peer_recommendation", "text_eqb pre (L \"available\") && text_eqb own_pref (L \"mutual\")", "text_eqb own_pref (L \"mutual\")", "C18", "encryption recommended although discouraged")
mut(R, "peer_recommendation", "if nonempty (me_keydata e) then Ok (L \"encrypt\") else Ok pre", "Ok (L \"encrypt\")", "C18", "encryption although the last mail had no header")
mut(R, "aggregate", "[L \"disable\"; L \"discourage\"; L \"available\"; L \"encrypt\"]", "[L \"discourage\"; L \"disable\"; L \"available\"; L \"encrypt\"]", "C20", "wrong order of severity")
mut(R, "aggregate", "[L \"disable\"; L \"discourage\"; L \"available\"; L \"encrypt\"]", "[L \"encrypt\"; L \"available\"; L \"discourage\"; L \"disable\"]", "C20", "the best recommendation of all recipients is given")
mut(R, "aggregate", "if text_eqb own_pref (L \"mutual\") then Ok (Some (L \"encrypt\"))", "if text_eqb own_pref (L \"mutual\") then Ok (Some (L \"available\"))", "C21", "no recipients: never encrypt")

# ---------------------------------------------------------------- Mime.v
F = "Mime.v"
mut(F, "parse_email_addr", "Some s => lower (parseaddr s)", "Some s => parseaddr s", "C08", "addresses are not lower-cased")
mut(F, "make_ac_header_value", "(if text_eqb pref (L \"nopreference\") then [] else [L \"prefer-encrypt=\" ++ pref])", "(if text_eqb pref (L \"nopreference\") then [] else [L \"prefer-encrypted=\" ++ pref])", "C24", "misspelled attribute")
mut(F, "make_ac_header_value", "(if text_eqb pref (L \"nopreference\") then [] else [L \"prefer-encrypt=\" ++ pref])", "[]", "C24", "the preference is left out")
mut(F, "make_ac_header_value", "let addr := parse_email_addr (Some addr) in\n  if nonempty keydata", "if nonempty keydata", "C24", "address written as given")
mut(F, "indented_split", "chunks (length value) 78 value", "chunks (length value) 80 value", "C23", "lines of 80 characters plus indentation")
mut(F, "indented_split", "L \"  \" ++ l ++ [10%N]", "l ++ [10%N]", "C23", "continuation lines are not indented")
mut(F, "ac_step", "match b64decode (join [] (split_ws value)) with", "match b64decode value with", "C26", "white space in key data is not removed")
mut(F, "ac_step", "if mem_text value [L \"nopreference\"; L \"mutual\"] then", "if true then", "C27", "unknown preferences accepted")
mut(F, "ac_step", "if N.eqb c 95 then", "if true then", "C27", "unknown critical attributes are ignored")
mut(F, "ac_step", "if N.eqb c 95 then", "if false then", "C28", "non-critical attributes are refused")
mut(F, "ac_step", "(Some (parse_email_addr (Some value)))", "(Some value)", "C26", "the addr attribute is not normalised")
mut(F, "ac_step", "split_max 61 1 x", "split_on 61 x", "C26", "'=' inside a value breaks the attribute")
mut(F, "ac_step", "let value := strip v in", "let value := v in", "C26", "values are not stripped")
mut(F, "parse_ac_headervalue", "None => Ok (pah_error (L \"critical attr 'addr' missing\"))", "None => Ok (PAH (Some kd) (Some []) (Some (h_pref st)) (Some (h_extra st)) None)", "C27", "addr may be missing")
mut(F, "parse_ac_headervalue", "ac_loop (HS None (L \"nopreference\") None []) parts", "ac_loop (HS None (L \"mutual\") None []) parts", "C26", "default preference is mutual")
mut(F, "parse_one_ac_header_from_msg", "if text_eqb (get_content_type m) (L \"multipart/report\") then", "if false then", "C02", "reports are used")
mut(F, "parse_one_ac_header_from_msg", "if Nat.ltb 1 (length (getaddresses froms)) then", "if false then", "C02", "mails with several From addresses are used")
mut(F, "parse_one_ac_header_from_msg", "| _ :: _ :: _ => Ok (pah_error (L \"more than one valid Autocrypt header found\"))", "| r :: _ :: _ => Ok r", "C01", "the first of several valid headers is used")
mut(F, "ac_headers_loop", "if nonempty fromlist\n              && negb (match p_addr r with Some a => mem_text a fromlist | None => false end)", "if false", "C01", "the address of the header need not match From")
mut(F, "ac_headers_loop", "rbind (parse_ac_headervalue v) (fun r =>\n    rbind (ac_headers_loop fromlist vals')", "rbind (Ok (match parse_ac_headervalue v with Ok p => p | Err _ => pah_error (L \"bad\") end)) (fun r =>\n    rbind (ac_headers_loop fromlist vals')", "C25", "exceptions while parsing a header are caught (a fix)")
mut(F, "gossip_loop", "if has_error r then gossip_loop acc vals'\n      else", "if false then gossip_loop acc vals'\n      else", "C38", "broken gossip headers are used")
mut(F, "get_gossip_headers_from_msg", "hget_all m (L \"Autocrypt-Gossip\")", "hget_all m (L \"Autocrypt\")", "C37", "Autocrypt headers are taken for gossip")
mut(F, "is_encrypted", "&& text_eqb (get_content_type p1) (L \"application/octet-stream\")", "", "C34", "any second part counts as encrypted")
mut(F, "is_encrypted", "if text_eqb (get_content_type m) (L \"multipart/encrypted\") then\n    match m_body m", "if true then\n    match m_body m", "C34", "any multipart with such parts counts as encrypted")
mut(F, "make_content_message_from_email", "if is_content_header k then m' else hdel m' k", "m'", "C33", "all headers are put into the encrypted part")
mut(F, "is_content_header", "[L \"content-transfer-encoding\"; L \"content-type\"]", "[L \"content-type\"]", "C34", "the transfer encoding is lost by encryption")
mut(F, "is_ignored_header", "[L \"content-type\"; L \"mime-version\"; L \"content-transfer-encoding\"]", "[L \"content-type\"; L \"mime-version\"]", "C34", "the transfer encoding of the original is put on the encrypted mail")
mut(F, "is_ignored_header", "[L \"content-type\"; L \"mime-version\"; L \"content-transfer-encoding\"]", "[L \"content-type\"; L \"mime-version\"; L \"content-transfer-encoding\"; L \"subject\"]", "C34", "the subject is lost by encryption")
mut(F, "get_delivered_to", "let d := if nonempty d then d\n           else", "let d := if false then d\n           else", "C50", "the fallback address wins over Delivered-To")
mut(F, "get_target_fulladr", "hget_all m (L \"to\") ++ hget_all m (L \"cc\")", "hget_all m (L \"to\")", "C35", "Cc is forgotten")

# ---------------------------------------------------------------- Account.v
A = "Account.v"
mut(A, "parse_date_to_float", "| Some d =>\n    match parsedate d with\n    | None => Ok 0%Z", "| Some d =>\n    match parsedate d with\n    | None => Err TypeError", "C03", "an unreadable date raises")
mut(A, "effective_date", "Ret (Z.min date now)", "Ret date", "C03", "dates in the future are believed")
mut(A, "effective_date", "Ret (Z.min date now)", "Ret now", "C03", "the time of processing is used")
mut(A, "get_account", "assert_ (isalnum name) ;;;\n  if check", "if check", "C45", "any account name is accepted")
mut(A, "get_account", "ex <- account_exists name ;;\n    if ex then Ret name else Raise AccountNotFound", "Ret name", "C45", "unknown accounts are not noticed")
mut(A, "get_bingpg", "else if text_eqb (cf_mode c) (L \"system\") then lift (mk_bingpg None (cf_bin c))", "else if text_eqb (cf_mode c) (L \"system\") then lift (mk_bingpg (Some (own_gpghome acct)) (cf_bin c))", "C44", "system accounts use their own ring")
mut(A, "get_bingpg", "if text_eqb (cf_mode c) (L \"own\") then lift (mk_bingpg (Some (own_gpghome acct)) (cf_bin c))", "if text_eqb (cf_mode c) (L \"own\") then lift (mk_bingpg None (cf_bin c))", "C44", "own accounts use the system ring")
mut(A, "create", "new_config acct (CfgEntry (L \"nopreference\") acct regex gpgmode gpgbin) ;;;", "new_config acct (CfgEntry (L \"mutual\") acct regex gpgmode gpgbin) ;;;", "C39", "new accounts prefer encryption")
mut(A, "create", "| Some h =>\n           g <- get_bingpg acct ;;\n           r <- get_secret_keyhandle g h ;;\n           match r with Some h' => Ret h' | None => Raise ValueError end", "| Some h =>\n           g <- get_bingpg acct ;;\n           r <- get_secret_keyhandle g h ;;\n           match r with Some h' => Ret h' | None => Ret h end", "C39", "a key that is not found is used nevertheless")
mut(A, "create", "append_keygen acct keydata kh'.", "append_keygen acct keydata [].", "C39", "the key handle is not recorded")
mut(A, "add_account", "if ex then Raise AccountExists\n  else", "if false then Raise AccountExists\n  else", "C45", "an existing account is overwritten")
mut(A, "del_account", "a <- get_account name true ;;\n  remove_account a", "a <- get_account name false ;;\n  remove_account a", "C40", "deleting an unknown account succeeds")
mut(A, "account_loop", "if b then Ret (Some a) else account_loop names' emailadr", "if b then Ret (Some a) else Ret None", "C46", "only the first account is tried")
mut(A, "get_account_from_emailadr", "None => if raising then Raise AccountNotFound else Ret None\n  end.\n\n(** account.py:170", "None => Ret None\n  end.\n\n(** account.py:170", "C46", "no exception when no account is found")
mut(A, "get_matching_account", "delivto <- lift (get_delivered_to m None) ;;\n    r' <- get_account_from_emailadr delivto true ;;", "delivto <- lift (get_delivered_to m None) ;;\n    r' <- get_account_from_emailadr delivto false ;;", "C41", "routing does not raise (same answer)")
mut(A, "rec_peers", "if otext_eqb (Some a) from then d else dset", "if false then d else dset", "C22", "the sender counts as recipient")
mut(A, "make_ac_header", "kd <- get_public_keydata g kh false ;;\n  c <- own_config acct", "kd <- get_secret_keydata g kh false ;;\n  c <- own_config acct", "C32", "the secret key is put into the header")
mut(A, "make_ac_header", "lift (make_ac_header_value emailadr kd (cf_pref c))", "lift (make_ac_header_value emailadr kd (L \"mutual\"))", "C32", "the own preference is ignored")
mut(A, "export_public_key", "get_public_keydata g h true.", "get_secret_keydata g h true.", "C48", "the secret key is exported")
mut(A, "import_key", "| InvocationFailure =>\n                      Some (Ret (None,", "| InvocationFailure =>\n                      Some (Ret (Some [],", "C12", "a failed import gives an empty handle")
mut(A, "import_key", "| InvocationFailure =>\n                      Some (Ret (None, PAH (p_keydata p)", "| InvocationFailure =>\n                      Some (Ret (None, PAH None", "C12", "a failed import drops the key data")
mut(A, "process_autocrypt_header", "p <- lift (parse_one_ac_header_from_msg m [from]) ;;", "p <- lift (parse_one_ac_header_from_msg m []) ;;", "C01", "the From address is not passed on")
mut(A, "process_autocrypt_header", "update_from_msg chain id date (p_pref p') (p_keydata p') kh ;;;\n  Ret p'", "(if has_error p' then Ret tt else update_from_msg chain id date (p_pref p') (p_keydata p') kh) ;;;\n  Ret p'", "C06", "mails without a valid header do not update last_seen")
mut(A, "decrypt_mime", "assert_ b ;;;\n  match m_body m with\n  | PParts [_; p1]", "match m_body m with\n  | PParts [_; p1]", "C36", "mail that is not encrypted is decrypted")
mut(A, "decrypt_mime", "Ret (transfer_non_content_headers m (parse_bytes dec), infos)", "Ret (transfer_non_content_headers (parse_bytes dec) m, infos)", "C34", "headers are transferred the wrong way")
mut(A, "gossip_recipient", "match dget addr2pah recipient with\n  | None => Ret st", "match dget addr2pah recipient with\n  | None => Ret (addr2pah, [])", "C37", "a recipient without gossip resets the result")
mut(A, "process_gossip_headers", "foldM (gossip_recipient acct date id) (get_target_emailadr m) (addr2pah, [])", "foldM (gossip_recipient acct date id) (map fst addr2pah) (addr2pah, [])", "C37", "gossip about anybody is used")
mut(A, "process_incoming", "gp <- process_gossip_headers acct dec date id ;;", "gp <- process_gossip_headers acct m date id ;;", "C36", "gossip of the outer mail is used")
mut(A, "process_incoming", "if ignore_existing && has_message l id then Ret None", "if has_message l id then Ret None", "C07", "known mails are always skipped")
mut(A, "process_incoming", "if ignore_existing && has_message l id then Ret None", "if ignore_existing then Ret None", "C07", "all mails are skipped")
mut(A, "process_incoming", "enc <- (if no_decrypt then Ret false else lift (is_encrypted m)) ;;", "enc <- lift (is_encrypted m) ;;", "C55", "no_decrypt is ignored")
mut(A, "process_incoming", "let from := parse_email_addr (hget m (L \"From\")) in\n  let chain", "let from := parse_email_addr (hget m (L \"Reply-To\")) in\n  let chain", "C01", "Reply-To is taken for the sender")
mut(A, "process_incoming", "p <- process_autocrypt_header acct m from chain date id ;;", "p <- process_autocrypt_header acct m from chain d id ;;", "C03", "the Date header is recorded as it is")
mut(A, "import_keydata_as_autocrypt", "kh <- import_keydata g keydata true ;;\n  mapM", "kh <- import_keydata g keydata false ;;\n  mapM", "C49", "the key is not minimised")
mut(A, "import_keydata_as_autocrypt", "(Some pref) (Some kd) (Some kh))\n       uid_addrs", "(Some pref) (Some keydata) (Some kh))\n       uid_addrs", "C49", "the given key data is recorded, not the minimised key")
mut(A, "import_keydata_as_autocrypt", "Some a => Ret [parse_email_addr (Some a)]\n               | None =>", "Some a => Ret []\n               | None =>", "C49", "the given address is ignored")
mut(A, "encrypt_recipient", "if b then\n      own <- own_keyhandle acct ;;\n      Ret (khs ++ [own], clear)\n    else Raise ValueError", "if b then\n      own <- own_keyhandle acct ;;\n      Ret (khs ++ [own], clear)\n    else Ret (khs, clear)", "C33", "recipients without key are left out")
mut(A, "encrypt_recipient", "Ret (khs ++ [kh], hadd clear (L \"Autocrypt-Gossip\") v)", "Ret (khs ++ [kh], clear)", "C35", "no gossip headers are written")
mut(A, "encrypt_recipient", "Ret (khs ++ [kh], hadd clear (L \"Autocrypt-Gossip\") v)", "Ret (kh :: khs, hadd clear (L \"Autocrypt-Gossip\") v)", "C55", "keys in reverse order")
mut(A, "encrypt_recipient", "v <- lift (make_ac_header_value addr (public_keydata l) (L \"nopreference\")) ;;", "v <- lift (make_ac_header_value addr (public_keydata l) (peer_prefer_encrypt l)) ;;", "C35", "the preference of a peer is gossiped")
mut(A, "encrypt_mime", "enc_data <- gpg_encrypt g clear_data khs own ;;", "enc_data <- gpg_encrypt g clear_data khs [] ;;", "C33", "mails are not signed")
mut(A, "encrypt_mime", "(PParts [enc; data])", "(PParts [data; enc])", "C34", "parts in the wrong order")
mut(A, "encrypt_mime", "Ret (transfer_non_content_headers m newmsg, khs)", "Ret (newmsg, khs)", "C34", "headers are lost by encryption")
mut(A, "encrypt_mime", "assert_ (nonempty toaddrs) ;;;\n  '(khs, clear)", "'(khs, clear)", "C33", "encryption to nobody")
mut(A, "process_outgoing", "Ret (Some (strip h), hdel m (L \"ENCRYPT\"))", "Ret (Some (strip h), m)", "C31", "the ENCRYPT header is sent")
mut(A, "process_outgoing", "assert_ (mem_text (strip h) [L \"opportunistic\"; L \"yes\"; L \"no\"]) ;;;\n       Ret", "Ret", "C31", "any ENCRYPT value is accepted")
mut(A, "process_outgoing", "(if hin m (L \"Autocrypt\") then Ret (None, m)", "(if false then Ret (None, m)", "C32", "a second Autocrypt header is added")
mut(A, "process_outgoing", "if mem_text from_addr recipients then recipients\n                              else recipients ++ [from_addr]", "recipients", "C33", "not encrypted to oneself")
mut(A, "process_outgoing", "if otext_eqb enc_header (Some (L \"no\")) then Ret m\n            else if", "if", "C30", "ENCRYPT: no is ignored")
mut(A, "process_outgoing", "|| (negb (otext_eqb rec (Some (L \"disable\"))) && otext_eqb enc_header (Some (L \"yes\")))", "", "C29", "ENCRYPT: yes is ignored unless encryption is recommended")
mut(A, "process_outgoing", "else if otext_eqb enc_header (Some (L \"yes\")) then Raise ValueError\n            else Ret m", "else Ret m", "C29", "ENCRYPT: yes without key sends in clear")
mut(A, "process_outgoing", "rec <- recommend acct (map Some recipients) false (Some from_addr) ;;", "rec <- recommend acct (map Some recipients) true (Some from_addr) ;;", "C30", "every mail is taken for a reply to an encrypted one")
mut(A, "process_outgoing", "rec <- recommend acct (map Some recipients) false (Some from_addr) ;;", "rec <- recommend acct (map Some recipients) false None ;;", "C22", "the sender counts as a recipient")

# ---------------------------------------------------------------- Gpg.v
G = "Gpg.v"
mut(G, "homedirflags", "Some h => if nonempty h then [L \"--homedir\"; h] else []", "Some h => []", "C44", "the home directory is not passed to gpg")
mut(G, "gpg_outerr", "if negb (Z.eqb (g_ret r) 0) || (strict && nonempty err) then", "if strict && nonempty err then", "C12", "exit status of gpg ignored")
mut(G, "gpg_outerr", "if negb (Z.eqb (g_ret r) 0) || (strict && nonempty err) then", "if negb (Z.eqb (g_ret r) 0) then", "C32", "warnings of strict commands ignored")
mut(G, "ki_match", "text_eqb (lower (suffix_slice i id)) (lower (suffix_slice i other))", "text_eqb (suffix_slice i id) (suffix_slice i other)", "C54", "ids compared with capitalization")
mut(G, "ki_match", "let i := Nat.min (length other) (length id) in", "let i := length other in", "C54", "the longer of the two decides")
mut(G, "encrypt_argv", "[L \"-r\"; r]", "[L \"-R\"; r]", "C55", "hidden recipients")
mut(G, "encrypt_argv", "(if nonempty signkey then [L \"--sign\"; L \"-u\"; signkey] else [])", "[]", "C33", "never signed")
mut(G, "encrypt_argv", "[L \"--encrypt\"; L \"--always-trust\"]", "[L \"--encrypt\"]", "C33", "untrusted keys are refused by gpg")
mut(G, "get_public_keydata", "[L \"--export-options=export-minimal\"; L \"--export\"; kh]) None None true false", "[L \"--export-options=export-minimal\"; L \"--export-secret-key\"; kh]) None None true false", "C32", "the secret key is exported")
mut(G, "import_keydata", "if minimize then", "if false then", "C49", "never minimised")
mut(G, "import_keydata", "gpg_outerr g [L \"--yes\"; L \"--delete-key\"; kh] None None false true ;;;", "", "C49", "the key is not deleted before importing the minimised one")
mut(G, "find_keyhandle", "if Nat.leb (length x) 8 then", "if false then", "C49", "short ids are used as handles")
mut(G, "import_keydata", "'(_, err) <- gpg_outerr g [L \"--skip-verify\"; L \"--import\"] (Some keydata) None false true ;;\n  kh <- find_keyhandle", "'(_, err) <- gpg_outerr g [L \"--skip-verify\"; L \"--import\"; keydata] None None false true ;;\n  kh <- find_keyhandle", "C55", "key data on the command line")
mut(G, "match_key_at", "if startswith (L \"key \") s then", "if startswith (L \"key\") s then", "C55", "key id found in other words")
mut(G, "gpg_decrypt", "(nopassphrase g ++ [L \"--with-colons\"; L \"--decrypt\"])", "(nopassphrase g ++ [L \"--with-colons\"; L \"--decrypt\"; L \"--ignore-mdc-error\"])", "C55", "modified mail is accepted")
mut(G, "get_secret_keyhandle", "existsb (contains kh) (ki_uids k) || ki_match (ki_id k) kh", "true", "C39", "the first secret key is used")

# ---------------------------------------------------------------- Cmdline.v
C = "Cmdline.v"
mut(C, "cli_destroy_all", "if yes then", "if true then", "C46", "destroy-all does not ask")
mut(C, "cli_process_outgoing", "match r with Some _ => Ret m | None => Raise ClickException end\n  else", "match r with Some _ => Ret m | None => Ret m end\n  else", "C59", "resent mail of strangers is passed on")
mut(C, "cli_process_outgoing", "match r with Some _ => Ret m | None => Raise ClickException end\n  else", "match r with Some a => o <- process_outgoing a m ;; Ret (out_msg o) | None => Raise ClickException end\n  else", "C59", "resent mail is processed")
mut(C, "cli_process_incoming", "Z.eqb (autocrypt_timestamp l) (last_seen l)", "Z.leb (autocrypt_timestamp l) (last_seen l)", "C53", "always found")
mut(C, "cli_process_incoming", "r <- process_incoming a m (negb reparse) no_decrypt ;;", "r <- process_incoming a m reparse no_decrypt ;;", "C53", "reparse means the opposite")
mut(C, "scan_one", "AccountNotFound | ValueError | UnicodeError => Some (Ret None)", "AccountNotFound => Some (Ret None)", "C52", "mails without recipient stop the scan")
mut(C, "scan_one", "(fun e => match e with InvocationFailure => Some (Ret None) | _ => None end) ;;\n          match r with", "(fun e => None) ;;\n          match r with", "C52", "mails that cannot be decrypted stop the scan")
mut(C, "ninety_days", "90 * 24 * 60 * 60 * sec", "9 * 24 * 60 * 60 * sec", "C52", "nine days")
mut(C, "scan_one", "if is_too_old now date then Ret ScanTooOld", "if false then Ret ScanTooOld", "C52", "old mails are processed")
mut(C, "scan_one", "process_incoming a m (negb reparse) false ;; Ret (Some i)", "process_incoming a m (negb reparse) true ;; Ret (Some i)", "C52", "nothing is decrypted in a scan")
mut(C, "trunc_string", "length s - maxlen + 20", "length s - maxlen", "C57", "wrong number of dropped characters")
mut(C, "trunc_string", "if Nat.leb (length s) maxlen then s", "if Nat.ltb (length s) maxlen then s", "C57", "strings of exactly the maximal length are truncated")
mut(C, "cli_mod_account", "(Some (match gpgbin with Some b => b | None => L \"gpg\" end)) pref", "gpgbin pref", "C42", "the gpg program is kept (correct, but not the code)")
mut(C, "cli_del_account", "del_account name ;;; cli_status true", "cli_status true", "C40", "del-account does nothing")
mut(C, "cli_add_account", "(if use_system then L \"system\" else L \"own\")", "(L \"own\")", "C39", "--use-system-keyring is ignored")
mut(C, "status_peer_line", "else if nonempty (public_keyhandle l) then", "else if true then", "C48", "peers without key are shown")
mut(C, "cli_peerstate", "(last_seen l) (latest_msg_id l) (autocrypt_timestamp l) (latest_msg_id l)", "(last_seen l) (latest_msg_id l) (last_seen l) (latest_msg_id l)", "C53", "wrong timestamp printed")
mut(C, "cli_peerstate", "(public_keyhandle l) (has_direct_key l)", "(public_keyhandle l) (nonempty (public_keyhandle l))", "C53", "gossip keys are shown as direct")
mut(C, "cli_recommend", "recommend a (map Some adrs) false None", "recommend a (map Some adrs) true None", "C19", "the command assumes a reply")
mut(C, "cli_import", "import_keydata_as_autocrypt a email keydata pref", "import_keydata_as_autocrypt a email keydata (L \"mutual\")", "C49", "the preference option is ignored")
mut(C, "cli_make_header", "Some a => make_ac_header a emailadr\n  | None", "Some a => make_ac_header a a\n  | None", "C32", "make-header writes the account name as address")
mut(C, "cli_destroy_all", "Some _ => remove_all ;;; Ret true", "Some _ => Ret true", "C46", "destroy-all does nothing")

# ---------------------------------------------------------------- Bot.v
B = "Bot.v"
mut(B, "bot_reply", "if negb (contains delivto to) then Ret None", "if false then Ret None", "C50", "the bot answers everything")
mut(B, "format_others", "if nonempty addr && negb (text_eqb addr delivto) then", "if nonempty addr then", "C50", "the bot answers itself")
mut(B, "bot_reply", "if otext_eqb rec (Some (L \"encrypt\")) then", "if otext_eqb rec (Some (L \"available\")) then", "C51", "encrypted when only available")
mut(B, "bot_reply", "'(em, _) <- encrypt_mime a reply (from :: cc) ;;", "'(em, _) <- encrypt_mime a reply [from] ;;", "C51", "those in copy cannot read the reply")
mut(B, "bot_reply", "'(em, _) <- encrypt_mime a reply (from :: cc) ;;\n              b <- lift (is_encrypted em) ;;\n              assert_ b ;;;\n              Ret (Some em)", "'(em, _) <- encrypt_mime a reply (from :: cc) ;;\n              Ret (Some reply)", "C51", "the clear reply is sent")
mut(B, "bot_reply", "reply_to_enc <- (if text_eqb (get_content_type m) (L \"multipart/encrypted\")\n                       then decrypt_mime a m ;;; Ret true else Ret false) ;;", "reply_to_enc <- Ret false ;;", "C51", "replies to encrypted mail are not encrypted")
mut(B, "bot_reply", "r <- process_incoming a m false false ;;", "r <- process_incoming a m true false ;;", "C51", "mails sent again are not answered")
mut(B, "bot_reply", "let reply := gen_reply delivto from cc id", "let reply := gen_reply from delivto cc id", "C50", "sender and recipient exchanged")
mut(B, "gen_reply", "(if nonempty cc then [(L \"Cc\", join (L \",\") cc)] else [])", "[]", "C50", "nobody in copy")
mut(B, "gen_reply", "(L \"Autocrypt\", autocrypt)", "(L \"Autocrypt-Gossip\", autocrypt)", "C50", "no Autocrypt header in replies")
mut(B, "log_section", "SLog (sl_lines s) (pred (sl_indent s))", "SLog (sl_lines s) (match r with Ok _ => pred (sl_indent s) | Err _ => sl_indent s end)", "C58", "an exception leaves the indentation")
mut(B, "log_section", "if raising then (s, Err e)", "if negb raising then (s, Err e)", "C58", "exceptions propagate from the wrong sections")
mut(B, "log_call", "indent_text (sl_indent s) ++ l", "l", "C58", "lines are not indented")

# ---------------------------------------------------------------- MimeTree.v
T = "MimeTree.v"
mut(T, "prefix_below", "if ends_with c_last p then removelast p ++ L \" \" else p", "p", "C60", "the corner is repeated")
mut(T, "render", "rbind (render x (below ++ [c_more])) (fun t =>\n                         rbind (children l') (fun r => Ok (t ++ [10%N] ++ r)))", "rbind (render x (below ++ [c_more])) (fun t =>\n                         rbind (children l') (fun r => Ok (t ++ r)))", "C60", "line break missing between parts")
mut(T, "render", "part_line prefix c_node (Msg h (PParts l)) n", "part_line prefix c_leaf (Msg h (PParts l)) n", "C60", "multiparts are drawn as leaves")

# ---------------------------------------------------------------- Fs.v
S = "Fs.v"
mut(S, "store_block", "perform (FWriteBlock cid serialized) ;;;\n  Ret cid", "Ret cid", "C61", "the block is never written")
mut(S, "upsert", "perform (FWriteHeads (dumps (PyDict (dset heads n cid))))", "perform (FWriteHeads (dumps (PyDict [(n, cid)])))", "C10", "other chains are forgotten")
mut(S, "append_entry", "parent <- head_parent n ;;\n  cid <- store_block e parent ;;\n  upsert n cid", "cid <- store_block e None ;;\n  upsert n cid", "C09", "history is lost with every append")
mut(S, "remove_if", "dumps (PyDict (dremove_if f heads))", "dumps (PyDict heads)", "C40", "nothing is removed")
mut(S, "walk", "Some p => if nonempty p then walk f p else Ret []", "Some p => Ret []", "C09", "only the last entry of a chain is read")
mut(S, "block_data", ":: SFloat t :: args_of e", ":: SFloat 0 :: args_of e", "C09", "time of a block lost")
mut(S, "getheads", "None => Ret []\n  | Some c =>\n    match load c", "None => Raise LoadError\n  | Some c =>\n    match load c", "C09", "a fresh directory cannot be read")
# ---------------------------------------------------------------- Chain.v
H = "Chain.v"
mut(H, "args_of", "EMsg (MsgEntry i d p k h) => [SStr i; SFloat d; SStr p; SBytes k; SStr h]", "EMsg (MsgEntry i d p k h) => [SStr i; SFloat d; SStr h; SBytes k; SStr p]", "C09", "fields exchanged in the file")
mut(H, "tag_of", "EGossip _ => L \"mge\"", "EGossip _ => L \"msg\"", "C09", "gossip has the tag of messages")

# ---------------------------------------------------------------- Base64.v / Env.v / PyStr.v are checked through the above
V = "Env.v"
mut(V, "hget_all", "map snd (filter (fun kv => text_eqb (lower (fst kv)) (lower name)) (m_headers m))", "map snd (filter (fun kv => text_eqb (fst kv) name) (m_headers m))", "C26", "header names compared with capitalization")
mut(V, "hdel", "filter (fun kv => negb (text_eqb (lower (fst kv)) (lower name)))", "filter (fun kv => negb (text_eqb (fst kv) name))", "C31", "del compares with capitalization")
mut(V, "get_content_type", "lower (strip (hd [] (split_on 59 v)))", "strip (hd [] (split_on 59 v))", "C34", "content types compared with capitalization")

# ================================================================ second series
# ---------------------------------------------------------------- PyStr.v
Y = "PyStr.v"
mut(Y, "utf8", "between 194 c 223", "between 192 c 223", "C62", "overlong forms of two bytes are accepted")
mut(Y, "utf8", "(if N.eqb c 237 then 159 else 191)", "191", "C62", "encoded surrogates are accepted")
mut(Y, "utf8", "between 240 c 244", "between 240 c 243", "C62", "the last plane cannot be decoded")
mut(Y, "utf8_cp", "Some [192 + c / 64; 128 + c mod 64]%N", "Some [192 + c / 64; 128 + c mod 32]%N", "C62", "wrong second byte")
mut(Y, "utf8_cp", "else if between 55296 c 57343 then None", "", "C62", "surrogates are encoded")
mut(Y, "to_utf8", "Some (b ++ r) | _, _ => None", "Some (b ++ r) | _, _ => Some []", "C62", "mail that cannot be encoded is sent empty")
mut(Y, "lstrip", "| c :: s' => if is_space c then lstrip s' else s", "| c :: s' => if is_space c then s' else s", "C25", "strip removes one space only")
mut(Y, "split_max", "if N.eqb x c then [] :: split_max c n' s'", "if N.eqb x c then [] :: split_max c n s'", "C59", "split with a limit ignores the limit")
mut(Y, "join", "| x :: l' => x ++ sep ++ join sep l'", "| x :: l' => x ++ join sep l'", "C24", "join forgets the separator")
mut(Y, "split_ws_aux", "match acc with [] => split_ws_aux [] s' | _ => rev acc :: split_ws_aux [] s' end", "rev acc :: split_ws_aux [] s'", "C25", "split() keeps empty parts")
mut(Y, "contains", "startswith p s || match s with [] => false | _ :: s' => contains p s' end", "startswith p s", "C50", "substring only at the start")
mut(Y, "suffix_slice", "match i with O => s | _ => skipn (List.length s - i) s end", "firstn i s", "C43", "key ids compared from the front")
mut(Y, "splitlines_aux", "if N.eqb x 13 && N.eqb y 10 then rev acc :: splitlines_aux [] s''", "if false then rev acc :: splitlines_aux [] s''", "C69", "CR LF counts as two line ends")
mut(Y, "insert_text", "if text_leb x y then x :: l else y :: insert_text x l'", "x :: l", "C45", "lists are not sorted")
mut(Y, "ascii_lower_cp", "if N.leb 65 c && N.leb c 90 then", "if N.leb 65 c && N.leb c 89 then", "C14", "Z is not lowered")
mut(Y, "dec_aux", "if N.eqb (n / 10) 0 then d :: acc else dec_aux f (n / 10) (d :: acc)", "if N.eqb (n / 10) 0 then d :: acc else dec_aux f (n / 10) acc", "C62", "numbers are printed with one digit")

# ---------------------------------------------------------------- Base64.v is used by Mime.v
# ---------------------------------------------------------------- Env.v
mut(V, "hin", "existsb (fun kv => text_eqb (lower (fst kv)) (lower name)) (m_headers m)", "existsb (fun kv => text_eqb (fst kv) name) (m_headers m)", "C30", "an existing autocrypt header in lower case is not seen")
mut(V, "hget_list", "if text_eqb (lower k) lname then Some v else hget_list h' lname", "match hget_list h' lname with Some w => Some w | None => if text_eqb (lower k) lname then Some v else None end", "C31", "the last header of a name wins")
mut(V, "hadd", "Msg (m_headers m ++ [(name, value)]) (m_body m)", "Msg ((name, value) :: filter (fun kv => negb (text_eqb (lower (fst kv)) (lower name))) (m_headers m)) (m_body m)", "C30", "adding a header replaces others of the name")
mut(V, "isalnum", "nonempty s && forallb isalnum_cp s", "forallb isalnum_cp s", "C39", "the empty account name is allowed")
mut(V, "lower", "if is_ascii s then map ascii_lower_cp s else uni_lower s", "s", "C14", "addresses are not lowered")
mut(V, "count_cp", "length (filter (N.eqb c) s)", "length (filter (fun x => negb (N.eqb c x)) s)", "C34", "get_content_type never finds a slash")
mut(V, "parsedate", "option_map fst (parsedate_tz s)", "match parsedate_tz s with Some (t, Some z) => Some (t - z)%Z | Some (t, None) => Some t | None => None end", "C56", "the zone of a date is used (as it should be)")

# ---------------------------------------------------------------- Chain.v
mut(H, "entry_of", "[SBytes k; SStr h] => Some (EKeygen (KeygenEntry k h)) | _ => None", "[SBytes k; SStr h] => Some (EKeygen (KeygenEntry [] h)) | _ => None", "C09", "key data lost when read back")
mut(H, "argv_home", "if text_eqb f (L \"--homedir\") then d else []", "d", "C41", "every command has a home")
mut(H, "astep", "(AState (a_logs s) (a_rings s) (S (a_tick s)) (a_uuid s) (a_trace s), clock (a_tick s))", "(AState (a_logs s) (a_rings s) (a_tick s) (a_uuid s) (a_trace s), clock (a_tick s))", "C08", "time stands still")
mut(H, "astep", "Block (clock (a_tick s)) e :: alog s n", "[Block (clock (a_tick s)) e]", "C09", "appending forgets the chain")
mut(H, "astep", "(AState [] (dremove_if nonempty (a_rings s))", "(AState (a_logs s) (dremove_if nonempty (a_rings s))", "C40", "rmtree keeps the logs")
mut(H, "ring_at", "match dget rs h with Some r => r | None => ring0 end", "ring0", "C41", "every gpg process starts with an empty ring")

# ---------------------------------------------------------------- Gpg.v
G = "Gpg.v"
mut(G, "path_join", "if negb (nonempty dir) || N.eqb (last dir 0%N) 47 then dir ++ name else dir ++ L \"/\" ++ name", "dir ++ name", "C70", "no slash between directory and name")
mut(G, "find_executable", "if isabs name then if is_file name then Some name else None", "if isabs name then Some name", "C70", "an absolute path need not exist")
mut(G, "find_executable", "(split_on 58 env_path)", "(rev (split_on 58 env_path))", "C70", "PATH is searched from the end")
mut(G, "find_executable", "find is_file (map", "hd_error (map", "C70", "the first directory of PATH is taken")
mut(G, "vruns", "if vclass_eqb (vclass_of c) k then (k, c :: r) :: rs", "if false then (k, c :: r) :: rs", "C71", "every digit is a component")
mut(G, "num_of", "(10 * n + (c - 48))%N", "(n + (c - 48))%N", "C71", "digit sum instead of number")
mut(G, "version_ge", "if N.eqb x y then version_ge a' b' else Ok (N.leb y x)", "Ok (N.leb y x)", "C71", "only the first component is compared")
mut(G, "version_ge", "| _, [] => Ok true\n  | [], _ => Ok false", "| [], _ => Ok false\n  | _, [] => Ok true", "C71", "equal versions are smaller")
mut(G, "version_ge", "| _, _ => Err TypeError", "| _, _ => Ok false", "C71", "numbers and texts can be compared")
mut(G, "gpg_version", "(split_on 32 (hd [] (split_on 10 out))) 2", "(split_on 32 (hd [] (split_on 10 out))) 1", "C71", "wrong word of the version line")
mut(G, "isgpg21", "version_ge v [VNum 2; VNum 1]", "version_ge v [VNum 2; VNum 2]", "C71", "loopback only from 2.2 on")
mut(G, "wants_agent_conf", "Ok (negb b')", "Ok b'", "C71", "agent configuration for the wrong versions")
mut(G, "mk_bingpg", "None => Err ValueError\n  | Some p => rbind", "None => Ok (BinGPG home path)\n  | Some p => rbind", "C70", "a program that is not found is used anyway")
mut(G, "nopassphrase", "if gpg21 (gp_path g) then [L \"--pinentry-mode=loopback\"] else []", "[]", "C65", "gpg asks for a passphrase")
mut(G, "version_info", "if Z.eqb (g_ret r) 0 then Ok out else Err InvocationFailure", "Ok out", "C71", "a failing gpg --version counts")
mut(G, "py_int_ok", "nonempty s && forallb is_digit s", "true", "C72", "bad key sizes are accepted")
mut(G, "add_uid", "if ki_main k then KeyInfo (ki_id k) (ki_uids k ++ [uid]) true :: l'\n               else k :: add_uid l' uid", "KeyInfo (ki_id k) (ki_uids k ++ [uid]) (ki_main k) :: l'", "C72", "user ids go to the subkey")
mut(G, "parse_line", "(if nonempty uid then [uid] else [])", "[uid]", "C72", "empty user ids are listed")
mut(G, "parse_line", "nth_error parts 9, nth_error parts 4, nth_error parts 5", "nth_error parts 9, nth_error parts 5, nth_error parts 4", "C72", "the date is taken for the id")
mut(G, "parse_lines", "[] => Ok (rev acc)", "[] => Ok acc", "C72", "keys in reverse order")
mut(G, "list_secret_keyinfos", "L \"--list-secret-keys\"; kh] (L \"sec\") (L \"ssb\")", "L \"--list-public-keys\"; kh] (L \"pub\") (L \"sub\")", "C65", "a public key counts as own key")
mut(G, "list_public_keyinfos", "L \"--list-public-keys\"; kh]", "L \"--list-public-keys\"]", "C65", "all keys are listed")
mut(G, "span_hex", "if is_hex c then c :: span_hex s' else []", "if is_hex c then [c] else []", "C73", "one digit of the key id")
mut(G, "search_key", "match s with [] => None | _ :: s' => search_key s' end", "None", "C73", "the key id only at the start of the text")
mut(G, "find_keyhandle", "if Nat.leb (length x) 8 then", "if false then", "C73", "short key ids are used as handles")
mut(G, "gen_secret_key", "find_keyhandle g err.\n\n(** bingpg.py:310-314", "Ret emailadr.\n\n(** bingpg.py:310-314", "C39", "the address is used as handle of the new key")
mut(G, "key_spec", "L \"Expire-Date: 0\"", "L \"Expire-Date: 1y\"", "C39", "generated keys expire")
mut(G, "get_secret_keydata", "L \"--export-secret-key\"; kh]) None None true false", "L \"--export-secret-key\"; kh]) None None false false", "C39", "warnings at export ignored")
mut(G, "gpg_encrypt", "(encrypt_argv g recipients signkey)", "(encrypt_argv g recipients [])", "C55", "mail is not signed")
mut(G, "enc_line", "re_lit (L \"-bit \") (re_some is_word (fun type =>\n    re_any (re_lit (L \"ID \")", "re_lit (L \"-bit \") (re_some is_word (fun type =>\n    re_any (re_lit (L \"key \")", "C69", "wrong word before the key id")
mut(G, "strip_quotes", "rev (lq (rev (lq s)))", "lq s", "C69", "closing quote kept")
mut(G, "enc_keyinfos", "rbind (enc_keyinfos f uid' lines'')", "rbind (enc_keyinfos f None lines'')", "C69", "the user id is not kept (as it should be)")
mut(G, "gpg_decrypt", "(Some enc_data) None false false ;;\n  infos", "(Some enc_data) None true false ;;\n  infos", "C69", "every note of gpg is a failure")

# ---------------------------------------------------------------- Mime.v
N_ = "Mime.v"
# ---------------------------------------------------------------- MimeTree.v
mut(T, "disposition", "then L \" \" ++ fst d else acc", "then L \" \" ++ snd d else acc", "C60", "wrong parameter of the disposition")
mut(T, "part_label", "get_content_type m\n  ++", "[]\n  ++", "C60", "content type missing")
mut(T, "part_line", "prefix ++ [kind; c_arm]", "[kind; c_arm]", "C60", "no indentation")

# ---------------------------------------------------------------- States.v
U = "States.v"
mut(U, "own_chain", "L \"own:\" ++ acct", "L \"own:\"", "C39", "all accounts share a chain")
mut(U, "peer_prefix", "L \"peer:\" ++ acct ++ L \":\"", "L \"peer:\" ++ acct", "C45", "peers of an account whose name starts with this one")
mut(U, "with_prefix", "map (skipn (length p)) (filter (startswith p) names)", "map (skipn (length p)) names", "C45", "all chains are listed")
mut(U, "remove_account", "perform (CRemoveIf (match_account acct))", "perform (CRemoveIf (text_eqb (own_chain acct)))", "C40", "peers survive the account")
mut(U, "peer_addr", "last (split_max 58 2 chain) []", "last (split_max 58 1 chain) []", "C44", "account name in the address of a peer")
mut(U, "latest_msg_entry", "hd_error (msg_entries l)", "hd_error (rev (msg_entries l))", "C10", "the oldest mail is the latest")
mut(U, "latest_gossip_entry", "hd_error (gossip_entries l)", "hd_error (rev (gossip_entries l))", "C12", "the oldest gossip is used")
mut(U, "autocrypt_timestamp", "Some e => me_date e | None => 0%Z end.\n\n(** states.py:136", "Some e => last_seen l | None => 0%Z end.\n\n(** states.py:136", "C08", "the key has the date of the last mail")
mut(U, "has_direct_key", "Some e => nonempty (me_kh e) | None => false", "Some e => true | None => false", "C16", "a key that could not be imported counts")
mut(U, "public_keyhandle", "Some (inr e) => ge_kh e | None => [] end", "Some (inr e) => [] | None => [] end", "C16", "gossiped keys are not used")
mut(U, "public_keydata", "Some (inr e) => ge_keydata e | None => [] end", "Some (inr e) => [] | None => [] end", "C33", "gossiped keys are gossiped without data")
mut(U, "peer_prefer_encrypt", "Some (inl e) => me_pref e | _ => [] end", "Some (inl e) => me_pref e | Some (inr _) => L \"mutual\" | _ => [] end", "C11", "gossip sets the preference")
mut(U, "get_message_entry", "find (fun e => text_eqb (me_id e) id) (msg_entries l)", "hd_error (msg_entries l)", "C07", "any mail counts as the same")
mut(U, "valid_pref", "[L \"nopreference\"; L \"mutual\"]", "[L \"mutual\"]", "C39", "nopreference is refused")
mut(U, "own_keyhandle", "Some k => Ret (kg_kh k)", "Some k => Ret (kg_keydata k)", "C39", "key data as handle")
mut(U, "is_configured", "Some _, Some _ => true | _, _ => false", "Some _, _ => true | _, _ => false", "C36", "an account without key counts")
mut(U, "cfg_eqb", "text_eqb (cf_pref a) (cf_pref b) && ", "", "C42", "a changed preference is not stored")
mut(U, "change_config", "cf_name c)\n                       (match regex with", "cf_name c)\n                       (match pref with", "C42", "the preference is written to the regex")
mut(U, "change_config", "perform (CAppend (own_chain acct) e) ;;; Ret true", "perform (CAppend (own_chain acct) e) ;;; Ret false", "C42", "changes are not reported")
mut(U, "append_self_verification", "pk (L \"self\")", "pk (L \"peer\")", "C46", "wrong origin")
mut(U, "get_verification", "find (fun e => text_eqb addr (ve_addr e)) (verif_entries l)", "hd_error (verif_entries l)", "C46", "the last verification of anybody")
mut(U, "mgr_version", "option_map ac_version (hd_error (acfg_entries l))", "None", "C38", "never initialised")

# ---------------------------------------------------------------- Recommendation.v
R2 = "Recommendation.v"
mut(R2, "target_keyhandles", "Ret (addr, public_keyhandle l)", "Ret (addr, match latest_ac_entry l with Some e => me_kh e | None => [] end)", "C66", "gossiped keys are not listed")

# ---------------------------------------------------------------- Account.v
A2 = "Account.v"
mut(A2, "ensure_init", "set_version (L \"0.1\")", "Ret tt", "C38", "the directory is never initialised")
mut(A2, "get_account", "if ex then Ret name else Raise AccountNotFound", "Ret name", "C36", "unknown accounts are found")
mut(A2, "mod_account", "change_config a pref regex gpgbin", "change_config a pref regex None", "C42", "gpgbin is ignored")
mut(A2, "first_match", "re_match regex (lower adr)", "re_match regex adr", "C47", "routing depends on capitals")
mut(A2, "match_addrs", "match r with Some a => Ok (Some a) | None => match_addrs l adrs' end", "Ok r", "C47", "only the first recipient is looked at")
mut(A2, "peerstate_chain", "peer_chain acct (parse_email_addr (Some addr))", "peer_chain acct addr", "C14", "addresses are not normalized")
mut(A2, "rec_peers", "if otext_eqb (Some a) from then d else", "", "C21", "the sender is asked about too")
mut(A2, "export_secret_key", "get_secret_keydata g kh true", "get_public_keydata g kh true", "C48", "the public key is exported")
mut(A2, "export_public_key", "get_public_keydata g h true", "get_secret_keydata g h true", "C65", "the secret key is published")
mut(A2, "msg_id_text", "None => L \"None\"", "None => []", "C07", "mails without id have the empty id")
mut(A2, "process_gossip_headers", "(get_target_emailadr m) (addr2pah, [])", "(map fst addr2pah) (addr2pah, [])", "C12", "gossip about people that are not addressed is taken")
mut(A2, "encrypted_ctype", "multipart/encrypted; protocol", "multipart/mixed; protocol", "C28", "encrypted mail is not marked so")
mut(A2, "parse_date_to_float", "Err TypeError => Ok 0%Z", "Err _ => Ok 0%Z", "C56", "dates out of range are taken for 0")

# ---------------------------------------------------------------- Cmdline.v, Commands.v
C2 = "Commands.v"
mut("Cmdline.v", "cli_status_account", "Ret (StatusAccount c kh (concat (map ki_uids infos)) peers)", "Ret (StatusAccount c kh [] peers)", "C63", "user ids are not shown")
mut("Cmdline.v", "is_too_old", "Z.ltb ninety_days (now - d)", "Z.ltb ninety_days (d - now)", "C49", "mails from the future are skipped")
mut(C2, "peer_line", "if sp_last_was_ac p then L \"last-was-autocrypt\" else L \"past-autocrypt\"", "if sp_last_was_ac p then L \"past-autocrypt\" else L \"last-was-autocrypt\"", "C63", "status exchanged")
mut(C2, "account_lines", "kecho (L \"own-keyhandle\") (sa_kh st)", "kecho (L \"own-keyhandle\") (cf_name c)", "C63", "name shown as key")
mut(C2, "account_lines", "kecho (L \"prefer-encrypt\") (cf_pref c)", "kecho (L \"prefer-encrypt\") (cf_mode c)", "C63", "mode shown as preference")
mut(C2, "cmd_status_all", "concat ls", "hd [] ls", "C63", "only the first account is shown")
mut(C2, "peerstate_lines", "field16 (L \"keyhandle\") (po_kh p)", "field16 (L \"keyhandle\") (po_addr p)", "C61", "address shown as key")
mut(C2, "peerstate_lines", "show_time (po_ac_timestamp p)", "show_time (po_last_seen p)", "C61", "wrong time shown")
mut(C2, "cmd_process_incoming", "if Z.eqb (autocrypt_timestamp l) (last_seen l)", "if Z.leb (autocrypt_timestamp l) (last_seen l)", "C61", "says found for every mail")
mut(C2, "sendmail_path", "Some p => if nonempty p then p else L \"/usr/sbin/sendmail\"", "Some p => L \"/usr/sbin/sendmail\"", "C62", "PATH is ignored")
mut(C2, "cmd_sendmail", "let argv := sendmail_path :: args in", "let argv := [sendmail_path; last args []] in", "C62", "only the last argument is handed over")
mut(C2, "cmd_sendmail", "m' <- cli_process_outgoing m ;;\n  t <- lift (as_string m') ;;\n  inp", "m' <- cli_process_outgoing m ;;\n  t <- lift (as_string m) ;;\n  inp", "C62", "the unprocessed mail is sent")
mut(C2, "cmd_sendmail", "++ L \" exitcode, path: \" ++ sendmail_path] ret (Some (argv, inp))", "++ L \" exitcode, path: \" ++ sendmail_path] 0 (Some (argv, inp))", "C62", "failures of sendmail are not reported")
mut(C2, "cmd_import", "if is_ascii stdin then", "if true then", "C61", "binary keys are accepted")
mut(C2, "command_prog", "(if sys then L \"system\" else L \"own\")", "(if sys then L \"own\" else L \"system\")", "C61", "--use-system-keyring reversed")
mut(C2, "command_prog", "if changed then L \" \" else L \" NOT \"", "if changed then L \" NOT \" else L \" \"", "C61", "wrong message after a change")
mut(C2, "command_prog", "get_account_from_emailadr adr true ;;\n           match r with Some a => Ret [a]", "get_account_from_emailadr adr true ;;\n           match r with Some a => Ret [adr]", "C61", "find-account prints the address")
mut(C2, "command_prog", "Ret [if val then v else L \"Autocrypt: \" ++ v]", "Ret [v]", "C61", "make-header without the name of the header")
mut(C2, "command_prog", "b <- export_secret_key a ;; Ret [b]", "b <- export_public_key a None ;; Ret [b]", "C61", "export-secret-key exports the public key")
mut(C2, "command_prog", "specify --yes if you really want to destroy all state\"] 1 None", "specify --yes if you really want to destroy all state\"] 0 None", "C61", "refusal looks like success")

# ---------------------------------------------------------------- Fs.v
mut(S, "head_parent", "Ret (match b with Some _ => Some cid | None => None end)", "Ret None", "C09", "the chain is cut at every append")
mut(S, "upsert", "heads <- getheads ;;\n  perform FOpenHeads ;;;\n  perform (FWriteHeads (dumps (PyDict (dset", "perform FOpenHeads ;;;\n  heads <- getheads ;;\n  perform (FWriteHeads (dumps (PyDict (dset", "C09", "heads are read after the file was truncated")
mut(S, "fstep", "(FState None [] (dremove_if nonempty (f_rings s))", "(FState None [] []", "C40", "rmtree deletes the system key ring")

# ---------------------------------------------------------------- GpgMore.v
G2 = "GpgMore.v"
mut(G2, "packet_loop", "if startswith (L \"#\") line then packet_loop packets lines last raw'\n    else if", "if", "C78", "comment lines become lines of packets")
mut(G2, "packet_loop", "packet_loop ((t, v, rev lines) :: packets) [] (Some", "packet_loop ((t, v, rev lines) :: packets) lines (Some", "C78", "lines of a packet are repeated in the next")
mut(G2, "packet_loop", "Ok (rev ((t, v, rev lines) :: packets))", "Ok (rev packets)", "C78", "the last packet is lost")
mut(G2, "packet_loop", "packet_loop packets (line :: lines) last raw'", "packet_loop packets (rawline :: lines) last raw'", "C78", "lines of packets are not stripped")
mut(G2, "packet_loop", "packet_loop packets lines (Some (ptype, strip rest)) raw'", "packet_loop packets lines (Some (ptype, rest)) raw'", "C78", "the value of the first packet is not stripped")
mut(G2, "packet_loop", "| None => Err AssertionError\n      end\n  end", "| None => packet_loop packets lines last raw'\n      end\n  end", "C78", "text before the first packet is ignored")
mut(G2, "failure_text", "[L \"stdout:\"] ++ indented out ++ [L \"stderr:\"] ++ indented err", "[L \"stdout:\"] ++ indented err ++ [L \"stderr:\"] ++ indented out", "C78", "output and errors swapped in the message")
mut(G2, "failure_text", "if nonempty x then [x] else []", "[]", "C78", "extra information is not shown")
mut(G2, "dec_Z", "L \"-\" ++ dec_N (Npos p)", "dec_N (Npos p)", "C78", "a negative return code is shown as positive")
mut(G2, "list_secret_key_packets", "get_secret_keydata g kh false", "get_public_keydata g kh false", "C78", "packets of the public key instead of the secret one")
mut(G2, "list_public_key_packets", "get_public_keydata g kh false", "get_public_keydata g kh true", "C78", "the armored key is listed")
mut(G2, "supports_eddsa", "text_eqb (lower (strip x)) (L \"eddsa\")", "text_eqb (lower x) (L \"eddsa\")", "C78", "algorithm names are not stripped")
mut(G2, "supports_eddsa", "find (startswith (L \"Pubkey:\"))", "find (startswith (L \"Cipher:\"))", "C78", "the wrong line of gpg --version is read")
mut(G2, "gpg_sign", "L \"-u\"; kh]", "L \"-u\"]", "C78", "signs with a default key")
mut(G2, "gpg_sign", "(Some data) None false false", "(Some kh) None false false", "C78", "signs the key handle")
mut(G2, "gpg_verify", "(Some data) (Some signature)", "(Some signature) (Some data)", "C78", "data and signature swapped")
mut(G2, "killagent", "if b then", "if negb b then", "C78", "the agent is only killed for gpg 1")
mut(G2, "killagent", "++ homedirflags g ++", "++", "C78", "kills the agent of the user")

# ---------------------------------------------------------------- Plugins.v
P2 = "Plugins.v"
mut(P2, "gossip_hook", "gossip_hook ps' (fst r) key (snd r)", "gossip_hook ps' d key m", "C76", "a plugin does not see what the one before did")
mut(P2, "encryption_hook", "| [] => Ok m\n  | p :: ps' => rbind (before_encryption p from key d m) (fun r => encryption_hook ps' from key (fst r) (snd r))", "| [] => Ok m\n  | p :: ps' => rbind (before_encryption p from key d m) (fun r => encryption_hook ps' from key (fst r) m)", "C76", "changes to the payload are lost")
mut(P2, "process_incoming_with", "gp <- process_gossip_headers acct dec date id ;;\n                 key <- own_keyhandle acct ;;\n                 lift (gossip_hook ps gp key dec)", "key <- own_keyhandle acct ;;\n                 gp0 <- lift (gossip_hook ps [] key dec) ;;\n                 process_gossip_headers acct dec date id", "C76", "plugins get no gossip")
mut(P2, "process_incoming_with", "lift (gossip_hook ps gp key dec)", "lift (gossip_hook ps gp key m)", "C76", "plugins get the encrypted mail")
mut(P2, "encrypt_recipient_with", "dset keys addr (public_keydata l)", "dset keys addr kh", "C76", "plugins get key handles for keys")
mut(P2, "encrypt_recipient_with", "Ret (khs ++ [own], keys, clear)", "Ret (khs ++ [own], dset keys addr own, clear)", "C76", "plugins also get the own key")
mut(P2, "encrypt_mime_with", "lift (flatten payload)", "lift (flatten clear)", "C76", "what plugins add is not sent")
mut(P2, "encrypt_mime_with", "(encryption_hook ps (parse_email_addr (hget m (L \"From\"))) own keys clear)", "(encryption_hook ps own own keys clear)", "C76", "plugins get a wrong sender")
mut(P2, "process_outgoing_with", "encrypt_mime_with ps acct m recipients", "encrypt_mime_with [] acct m recipients", "C76", "plugins are not called for outgoing mail")
mut(P2, "exec_with", "encrypt_mime_with ps a m to", "encrypt_mime_with [] a m to", "C76", "plugins are not called by encrypt_mime")

# ---------------------------------------------------------------- Reader.v
D2 = "Reader.v"
mut(D2, "scan", "| None =>\n        match fb_parent fb with\n        | Some p => if nonempty p then scan f k p else Ret None", "| None =>\n        match fb_parent fb with\n        | Some p => Ret None", "C77", "only the newest block is looked at")
mut(D2, "reader_tag", "RKeygen => L \"keygen\"", "RKeygen => L \"cfg\"", "C77", "own key is looked for in wrong blocks")
mut(D2, "accepts", "| RAc, EMsg x => nonempty (me_keydata x)", "| RAc, EMsg x => true", "C77", "an entry without key counts as Autocrypt entry")
mut(D2, "accepts", "| RVerif a, EVerif x => text_eqb a (ve_addr x)", "| RVerif a, EVerif x => true", "C77", "a verification of another address")
mut(D2, "read_first", "| None => Err TypeError", "| None => Ok None", "C77", "blocks with wrong arguments are skipped")
mut(D2, "read_first", "if text_eqb (fb_tag fb) (reader_tag r) then", "if true then", "C77", "blocks of other classes are read")
mut(D2, "all_blocks", "Ret ((cid, fb) :: rest)", "Ret (rest ++ [(cid, fb)])", "C77", "blocks in reverse order")
mut(D2, "contains_cid", "(if text_eqb c cid then Some tt else None)", "(if startswith cid c then Some tt else None)", "C77", "a prefix of a block name counts")
mut(D2, "last_parent", "hd_error (rev l)", "hd_error l", "C77", "the last parent is the newest block")
mut(D2, "shortrepr", "firstn 23 r ++ L \"...\" ++ skipn (length r - 23) r", "firstn 23 r ++ L \"...\" ++ skipn 23 r", "C77", "long values are not shortened")
mut(D2, "dump", "(rev l))", "l)", "C77", "dump shows the newest first")
mut(D2, "chain_len", "Ret (length l)", "Ret (S (length l))", "C77", "one block too many")

# ---------------------------------------------------------------- Mime.v
F2 = "Mime.v"
mut(F2, "chunks", "firstn n s :: chunks f n (skipn n s)", "firstn n s :: chunks f n (skipn (S n) s)", "C24", "a character is lost at each fold")
mut(F2, "get_target_emailadr", "map snd (get_target_fulladr m)", "map fst (get_target_fulladr m)", "C21", "names of recipients instead of addresses")
mut(F2, "ac_loop", "| Ok (inl st') => ac_loop st' parts'", "| Ok (inl st') => ac_loop st parts'", "C23", "attributes are forgotten")
mut(F2, "has_error", "Some e => nonempty e", "Some e => false", "C23", "headers with errors count")
mut(F2, "transfer_non_content_headers", "hadd n (fst kv) (snd kv)", "hadd n (fst kv) (fst kv)", "C33", "header values are lost")
mut(F2, "transfer_non_content_headers", "if is_ignored_header (fst kv) then n else hadd n (fst kv) (snd kv)", "hadd n (fst kv) (snd kv)", "C33", "the old content type is kept")

# ---------------------------------------------------------------- States.v, once more
mut(U, "msg_entries", "| _ => msg_entries l' end", "| EGossip e => MsgEntry (ge_id e) (ge_date e) (L \"nopreference\") (ge_keydata e) (ge_kh e) :: msg_entries l' | _ => msg_entries l' end", "C80", "gossip entries count as direct ones")
mut(U, "get_verification", "find (fun e => text_eqb addr (ve_addr e)) (verif_entries l)", "find (fun e => text_eqb addr (ve_addr e)) (rev (verif_entries l))", "C81", "the oldest verification counts")
mut(U, "append_self_verification", "(L \"self\")", "(L \"peer\")", "C81", "wrong origin of a verification")
mut(U, "append_peer_verification", "VerifEntry addr pk", "VerifEntry (lower addr) pk", "C81", "verifications are filed under another address")
mut(U, "get_peername_list", "Ret (sorted (with_prefix (peer_prefix acct) names))", "Ret (with_prefix (peer_prefix acct) names)", "C81", "peers are not sorted")
mut(U, "get_peername_list", "Ret (sorted (with_prefix (peer_prefix acct) names))", "Ret (sorted (removelast (with_prefix (peer_prefix acct) names)))", "C81", "one peer is not listed")
mut(U, "get_account_names", "Ret (sorted (with_prefix (own_chain []) names))", "Ret (with_prefix (own_chain []) names)", "C81", "accounts are not sorted")
mut(U, "mk_gossip_entry", "Ok (EGossip (GossipEntry id date kd h))", "Ok (EGossip (GossipEntry id date kd []))", "C16", "the key handle of gossip is not recorded")
mut(U, "get_gossip_message_entry", "text_eqb (ge_id e) id", "true", "C13", "any gossip entry counts as that of the mail")
mut(U, "valid_mode", "[L \"system\"; L \"own\"]", "[L \"own\"]", "C39", "system mode is refused")
mut(U, "latest_config", "hd_error (cfg_entries l)", "hd_error (rev (cfg_entries l))", "C42", "the first settings count")
mut(U, "latest_keygen", "hd_error (keygen_entries l)", "None", "C39", "an account never has a key")
mut(U, "append_keygen", "KeygenEntry kd kh", "KeygenEntry [] kh", "C39", "the generated key is not recorded")
mut(U, "own_config", "Raise AttributeError", "Raise AccountNotFound", "C47", "another exception for missing settings")

# ---------------------------------------------------------------- the rest
mut(A2, "import_keydata_as_autocrypt", "kh <- import_keydata g keydata true ;;\n  mapM", "import_keydata g keydata true ;;;\n  mapM", "C49", "the handle of the first import is used")
mut(A2, "recommend", "ui_recommendation (cf_pref c) reply_to_enc", "ui_recommendation (cf_pref c) false", "C27", "replies to encrypted mail are not recognised")
mut(A2, "recommend", "(rec_peers acct addrs from)", "(rec_peers acct addrs None)", "C26", "the sender counts as recipient")
mut(C2, "pad", "(n - length t)", "n", "C61", "columns are not aligned")
mut(C2, "kecho", "L \" \" ++ value", "value", "C61", "no space before values")
mut(C2, "show_time", "if Z.eqb t 0 then [] else isoformat t", "isoformat t", "C61", "times that are not known are shown as 1970")
mut(C2, "cmd_status_account", "(if verbose then l", "(if negb verbose then l", "C61", "peers are shown without --verbose")
mut(C2, "repr", "L \"'\" ++ t ++ L \"'\"", "t", "C61", "names without quotes")
mut("Cmdline.v", "latest_msg_id", "me_id e", "me_pref e", "C63", "preference shown as message id")
mut("Cmdline.v", "cli_scandir", "now <- perform CTime ;;\n  mapM (scan_one reparse now) files", "now <- perform CTime ;;\n  mapM (scan_one (negb reparse) now) files", "C64", "--reparse is reversed")

B2 = "BotCommand.v"
mut(B2, "header_text", "if N.eqb c 10 then L \"\\n\" else [c]", "[c]", "C82", "line ends in headers are not escaped")
mut(B2, "header_text", "v) 60", "v) 80", "C82", "header values are shortened less")
mut(B2, "header_text", "pad 15 (hn ++ L \":\")", "pad 15 hn", "C82", "no colon after header names")
mut(B2, "shown_headers", "; L \"DKIM-Signature\"", "", "C82", "a header is not shown")
mut(B2, "log_processed", "L \" keyhandle=\" ++ public_keyhandle l\n                                        ++", "L \" keyhandle=\" ++ public_keydata l\n                                        ++", "C82", "the report shows the key instead of its handle")
mut(B2, "log_processed", "if nonempty e then log_call s e", "if nonempty e then s", "C82", "complaints about the header are not reported")
mut(B2, "deliver", "Ok (Posted [L \"send reply through smtp: \" ++ c :: t]", "Ok (Posted [t']", "C82", "a reply that was sent is printed")
mut(B2, "deliver", "smtp_send host p from (get_target_emailadr m) t'", "smtp_send host p from [from] t'", "C82", "the reply is sent to the bot")
mut(B2, "deliver", "| [host; port] =>", "| host :: port :: _ =>", "C82", "text after the port is ignored")
mut(B2, "bot_command", "'(_, infos) <- decrypt_mime a m ;;\n           Ret (log_call log", "'(_, infos) <- decrypt_mime a m ;;\n           Ret (log_call (SLog [] 0)", "C82", "the report begins anew for encrypted mail")
mut(B2, "bot_command", "if negb (contains delivto to) then Ret (Posted [] None)", "if negb (contains delivto to) then Ret (Posted [join [10%N] (sl_lines log)] None)", "C82", "the report is printed although there is no reply")
mut(B2, "bot_command", "lift (deliver smtp reply)", "lift (deliver None reply)", "C82", "--smtp is ignored")
mut(B2, "bot_command", "Ret (log, false)) ;;", "Ret (log, true)) ;;", "C82", "every reply counts as reply to encrypted mail")
mut(B2, "bot_command", "r <- process_incoming a m false false ;;", "r <- process_incoming a m true false ;;", "C82", "known mail is skipped by the bot")
mut(B2, "bot_command", "(L \"P.S.: my current key \" ++ kh", "(L \"P.S.: my current key \" ++ delivto", "C82", "the address is shown for the key")

D2 = "Disk.v"
mut(D2, "makedirs", "b <- exists_ up ;; (if b then Ret tt else makedirs up) ;;; try_op (DMkdir p)", "try_op (DMkdir p)", "C83", "directories above are not made")
mut(D2, "ensure_init", "makedirs h ;;; try_op (DChmod h private_dir)", "makedirs h", "C83", "permissions of the home directory are not set")
mut(D2, "ensure_init", "try_op (DChmod h private_dir)) ;;;", "Ret tt) ;;; try_op (DChmod h private_dir) ;;;", "C83", "permissions of an existing home directory are changed")
mut(D2, "ensure_init", "b' <- exists_ (agent_conf h) ;;\n      if b' then Ret tt else ", "", "C83", "an existing gpg-agent.conf is overwritten")
mut(D2, "ensure_init", "    if w then\n", "    if negb w then\n", "C83", "gpg-agent.conf for the wrong versions")
mut(D2, "conf_text", "L \"allow-loopback-pinentry\" ++ [10%N]", "L \"allow-loopback-pinentry\"", "C83", "no end of line in gpg-agent.conf")
mut(D2, "private_dir", "448", "511", "C83", "home directory open to everybody")
mut(D2, "new_bingpg", "| Some p => ensure_init home p ;;; Ret", "| Some p => Ret", "C83", "the home directory is not prepared")
mut(D2, "new_bingpg", "  match find_executable gpgbin with\n  | None => Raise ValueError", "  ensure_init home gpgbin ;;; match find_executable gpgbin with\n  | None => Raise ValueError", "C83", "the home directory is made before gpg is found")
mut(D2, "new_states", "if b then Ret tt else makedirs (L \"blocks\" :: dir)", "makedirs (L \"blocks\" :: dir)", "C83", "an existing state directory cannot be opened")
mut(D2, "new_states", "if b then Ret tt else makedirs (L \"blocks\" :: dir)", "if b then Ret tt else try_op (DMkdir (L \"blocks\" :: dir))", "C83", "only the last directory is made")
mut(D2, "temp_written_file", "  try_op (DRemove f) ;;;\n", "", "C83", "the temporary file is not removed")
mut(D2, "temp_written_file", "r <- catch (x <- body f ;; Ret (Ok x)) (fun e => Some (Ret (Err e))) ;;", "r <- (x <- body f ;; Ret (Ok x)) ;;", "C83", "the temporary file stays if the command fails")
mut(D2, "key_in_file", "c' <- try_op (DRead f) ;; Ret (Some c')", "Ret (Some [])", "C83", "the report of a failure quotes nothing")

K = "Click.v"
mut(K, "value_of", "    match value_of os' p with\n    | Some x => Some x\n    | None => if text_eqb q p then v else None\n    end", "    if text_eqb q p then v else value_of os' p", "C84", "the first value given counts")
mut(K, "cut_eq", "let '(n, v) := cut_eq w' in (c :: n, v)", "let '(n, v) := cut_eq w' in (c :: n, match v with Some [] => None | _ => v end)", "C84", "an empty value after = is not seen")
mut(K, "short_opts", "        | [] => Some ([], [], Some (o_param o))\n        | _ => Some ([(o_param o, Some cs')], [], None)", "        | [] => Some ([], [], Some (o_param o))\n        | _ => None", "C84", "a value must not be attached to a letter")
mut(K, "short_opts", "Some ((o_param o, None) :: os, unknown, wants)", "Some ([(o_param o, None)], unknown, wants)", "C84", "only the first of joined letters counts")
mut(K, "word_opts", "if d_ignore d then Some (Taken [] [w] None) else None", "if d_ignore d then Some (Taken [] [] None) else None", "C84", "long options are not passed to sendmail")
mut(K, "word_opts", "if d_ignore d then Some (Taken [] [w] None) else None", "Some (Taken [] [w] None)", "C84", "unknown long options are taken for arguments")
mut(K, "word_opts", "match unknown with [] => [] | _ => [45%N :: unknown] end", "[]", "C84", "joined letters are not passed to sendmail")
mut(K, "parse_words", "if text_eqb w (L \"--\") then Some ([], ws')", "if text_eqb w (L \"--\") then Some ([], ws)", "C84", "the separator is an argument")
mut(K, "parse_words", "if text_eqb w (L \"--\") then Some ([], ws')\n    else ", "", "C84", "no separator")
mut(K, "opt_account", "[L \"-a\"; L \"--account\"]", "[L \"-a\"; L \"--account-name\"]", "C84", "another name of the option")
mut(K, "choice_ok", "mem_text x [L \"nopreference\"; L \"mutual\"]", "mem_text x [L \"nopreference\"; L \"mutual\"; L \"never\"]", "C84", "one more preference is allowed")
mut(K, "name_of", "(L \"default\")", "(L \"\")", "C84", "another default account")
mut(K, "d_status", "is_set os (L \"verbose\")", "false", "C84", "-v is ignored")
mut(K, "d_add_account", "(L \"gpgbin\") (L \"gpg\")) (value_of", "(L \"gpgbin\") (L \"gpg2\")) (value_of", "C84", "another default gpg")
mut(K, "d_mod_account", "(fun os args => if choice_ok (value_of os (L \"prefer_encrypt\")) then\n        no_arg (IMod", "(fun os args => if true then\n        no_arg (IMod", "C84", "any preference is taken")
mut(K, "d_process_incoming", "(is_set os (L \"reparse\")) (is_set os (L \"no_decrypt\"))", "(is_set os (L \"no_decrypt\")) (is_set os (L \"reparse\"))", "C84", "two flags are mixed up")
mut(K, "d_import_public_key", "(L \"prefer_encrypt\") (L \"mutual\")", "(L \"prefer_encrypt\") (L \"nopreference\")", "C84", "another default preference")
mut(K, "d_recommend", "Some (IRecommend (name_of os) args)", "match args with [] => None | _ => Some (IRecommend (name_of os) args) end", "C84", "no recommendation without addresses")
mut(K, "d_sendmail", "Decl (L \"sendmail\") [opt_help] true true", "Decl (L \"sendmail\") [opt_help] true false", "C84", "options of sendmail after an address are not looked at")
mut(K, "d_sendmail", "Decl (L \"sendmail\") [opt_help] true true", "Decl (L \"sendmail\") [opt_help; opt_account] true true", "C84", "sendmail has an option -a")
mut(K, "d_export_public_key", "maybe_arg (IExport (name_of os))", "one_arg (fun k => IExport (name_of os) (Some k))", "C84", "the key handle must be given")
mut(K, "d_bot_reply", "IBotReply (value_of os (L \"smtp\")) (value_of os (L \"fallback_delivto\"))", "IBotReply (value_of os (L \"fallback_delivto\")) (value_of os (L \"smtp\"))", "C84", "two options are mixed up")
mut(K, "d_destroy_all", "IDestroyAll (is_set os (L \"yes\"))", "IDestroyAll true", "C84", "destroy-all does not ask")
mut(K, "commands", "d_bot_reply; d_destroy_all", "d_destroy_all", "C84", "bot-reply is not registered")
mut(K, "main", "opt_help] false false", "opt_help] false true", "C84", "options of the group after the command")
mut(K, "no_command", "BadUsage\n              else match main_words [] with inl l => l | inr _ => BadUsage end", "BadUsage\n              else Runs None IOutgoing", "C84", "an unknown command runs another")
mut(K, "read_line", "Runs (value_of os (L \"basedir\")) i", "Runs None i", "C84", "--basedir is ignored")
mut(K, "read_line", "        if is_set os' (L \"help\") then ShowHelp\n        else ", "        ", "C84", "a command with -h is run")
mut(K, "command_of", "CmdMod n key (Some bin) regex pref", "CmdMod n key None regex pref", "C84", "gpgbin is not passed on")
mut(K, "command_of", "CmdIncoming n r d (in_mail inp)", "CmdIncoming n d r (in_mail inp)", "C84", "two flags are mixed up")
mut(K, "told_shortly", "AccountNotFound | AccountExists | ClickException", "AccountNotFound | ClickException", "C84", "traceback for an account that exists")
mut(K, "failed", "Ended 1 None None", "Ended 0 None None", "C84", "exit code 0 after a failure")
mut(K, "invoke", "(s', Ended (pr_exit p) (pr_started p) None false)", "(s', Ended 0 (pr_started p) None false)", "C84", "the exit code of sendmail is dropped")
mut(K, "invoke", "| (s', Ok p) => (s', Ended 0 None (po_mail p) false)\n      | (s', Err e) => (s', failed e)", "| (s', Ok p) => (s', Ended 0 None (po_mail p) false)\n      | (s', Err e) => (s', Ended 0 None None false)", "C84", "the bot fails silently")
mut(K, "muacrypt", "| BadUsage => (s, Ended 2 None None false)", "| BadUsage => (s, Ended 1 None None false)", "C84", "exit code 1 for bad usage")

# ---------------------------------------------------------------- Fs.v, several processes
S = "Fs.v"
mut(S, "append_entry", "cid <- store_block e parent ;;\n  upsert n cid.", "t <- perform FTime ;;\n  let b := dumps (block_data e parent t) in\n  upsert n (sha256 b) ;;;\n  perform (FOpenBlock (sha256 b) b) ;;;\n  perform (FWriteBlock (sha256 b) b).", "C85", "the head is set before the block is written")
mut(S, "store_block", "let cid := sha256 serialized in", "let cid := sha256 (dumps (block_data e parent 0)) in", "C85", "the time is not part of a block's name, so a block is written again in place")
mut(S, "getheads", "    | None => Raise LoadError\n    end\n  end.", "    | None => perform FOpenHeads ;;; perform (FWriteHeads (dumps (PyDict []))) ;;; Ret []\n    end\n  end.", "C85", "a reader replaces heads that it cannot read")
mut(S, "getheads", "    | None => Raise LoadError\n    end\n  end.", "    | None => Ret []\n    end\n  end.", "C85", "heads that cannot be read count as empty")

# ---------------------------------------------------------------- Live.v
W = "Live.v"
mut(W, "live_create", "  lbind (plain (assert_ (mem_text gpgmode [L \"own\"; L \"system\"]))) (fun _ =>\n", "  lbind (lbind (bingpg_of acct) (fun _ => plain (assert_ (mem_text gpgmode [L \"own\"; L \"system\"])))) (fun _ =>\n", "C86", "the gpg wrapper is built before the settings are stored")
mut(W, "live_header", "lbind (plain (own_keyhandle acct)) (fun kh =>\n  lbind (plain (get_public_keydata g kh false)) (fun kd =>", "lbind (plain (own_keyhandle acct)) (fun kh =>\n  lbind (plain (get_public_keydata g kh true)) (fun kd =>", "C86", "the kept object makes the header with the armored key")
mut(W, "live_export_secret", "plain (get_secret_keydata g kh true)", "plain (get_public_keydata g kh true)", "C86", "exports the public key as the secret one")
mut(W, "live_autocrypt_header", "if has_error p then lret (None, p) else live_import_key acct p", "live_import_key acct p", "C86", "imports although the header is bad")
mut(W, "live_incoming", "if ignore_existing && has_message l id then lret None", "if has_message l id then lret None", "C86", "a mail that was seen is always skipped")
mut(W, "live_incoming", "lbind (if no_decrypt then lret false else plain (lift (is_encrypted m)))", "lbind (plain (lift (is_encrypted m)))", "C86", "no_decrypt is not looked at")
mut(W, "live_import", "import_keydata g keydata true", "import_keydata g keydata false", "C86", "the key is not minimized on the second import")
mut(W, "live_outgoing", "if hin m (L \"Autocrypt\") then lret (None, m)", "if false then lret (None, m)", "C86", "a second Autocrypt header is added")
mut(W, "bingpg_of", "| Some g => Ret (c, Ok g)", "| Some g => Ret (None, Ok g)", "C86", "the cache is lost after it was used: no difference to the outside")
mut(W, "bingpg_of", "r <- catch (g <- get_bingpg acct ;; Ret (Ok g))", "r <- catch (g <- get_bingpg (L \"default\") ;; Ret (Ok g))", "C86", "the wrapper of the default account is used")
mut(W, "live_add", "if ex then plain (Raise AccountExists)\n  else ", "", "C86", "an account that exists is added again")
mut(W, "live_step", "match x with Ok a => os ++ [Obj a c] | Err _ => os end", "os ++ [Obj n c]", "C86", "an object is kept although adding failed")
mut(W, "live_step", "set_nth i (Obj (o_acct o) c) os", "map (fun o' => Obj (o_acct o') c) os", "C86", "the cache is shared by the objects of all accounts (a class attribute)")

# ---------------------------------------------------------------- Reads.v
Q = "Reads.v"
mut(Q, "r_entry_for_encryption", "then Ret (option_map inl direct)\n  else g <- r_gossip_entry chain ;; Ret (option_map inr g)", "then Ret (option_map inl direct)\n  else Ret None", "C87", "gossip keys are never used")
mut(Q, "r_preliminary", "if Z.ltb timeout (seen - ts)", "if Z.ltb timeout (ts - seen)", "C87", "the dates are exchanged")
mut(Q, "r_peer_recommendation", "Some e => if nonempty (me_keydata e) then Ret (L \"encrypt\") else Ret pre", "Some e => Ret (L \"encrypt\")", "C87", "the newest mail need not have a key")
mut(Q, "r_peer_recommendation", "if text_eqb p (L \"mutual\") then", "if negb (text_eqb p (L \"nopreference\")) then", "C87", "everything but nopreference counts as mutual")
mut(Q, "r_update_from_msg", "seen <- r_last_seen chain ;;\n        if", "seen <- r_timestamp chain ;;\n        if", "C87", "a mail without key is compared with the last Autocrypt date")
mut(Q, "r_update_from_msg_gossip", "(id : text) (date : Z)\n  (kd : option bytes) (kh : option text) : prog cop unit :=\n  ts <- r_timestamp chain ;;", "(id : text) (date : Z)\n  (kd : option bytes) (kh : option text) : prog cop unit :=\n  ts <- r_last_seen chain ;;", "C87", "gossip is compared with the last mail")
mut(Q, "r_get_bingpg", "else c3 <- own_config acct ;; lift (mk_bingpg h (cf_bin c3))", "else lift (mk_bingpg h (cf_mode c2))", "C87", "the mode is taken for the program")
mut(Q, "r_encrypt_recipient", "kh <- r_keyhandle (peerstate_chain acct addr) ;;", "kh <- r_keyhandle (peerstate_chain acct (L \"x\")) ;;", "C87", "the key of somebody else")
mut(Q, "r_process_incoming", "Ret (has_message l id) else Ret false", "Ret (has_message l id) else (l <- perform (CRead chain) ;; Ret (has_message l id))", "C87", "known mails are skipped although not asked for")
mut(Q, "r_recommend", "lift (aggregate (cf_pref c) recs).", "c <- own_config acct ;; lift (aggregate (cf_pref c) recs).", "C87", "the own preference is read a second time for the whole: no difference alone")

# the group of commands, kept recommendations, and definitions that had no wrong version yet
mut("Group.v", "add_command", "(match gr_list g with Some l => l | None => [] end ++ [cmd_name c])", "(cmd_name c :: match gr_list g with Some l => l | None => [] end)", "C92", "commands are listed in the opposite order")
mut("Group.v", "add_command", "| None => (Group (gr_commands g) l, Err TypeError)", "| None => (Group (gr_commands g) (gr_list g), Err TypeError)", "C92", "a command without a name does not get into the list")
mut("Group.v", "add_command", "(Group (dset (gr_commands g) n (cmd_does c)) l, Ok tt)", "(Group (match dget (gr_commands g) n with Some _ => gr_commands g | None => dset (gr_commands g) n (cmd_does c) end) l, Ok tt)", "C92", "the first command of a name wins")
mut("Group.v", "list_commands", "then Ok names else Err AssertionError", "then Ok (sorted names) else Err AssertionError", "C92", "commands are listed in alphabetical order")
mut("Group.v", "list_commands", "if texts_eqb (sorted commands) (sorted names) then Ok names else Err AssertionError", "Ok names", "C92", "the list is not compared with the commands")
mut("Group.v", "builtin", "L \"bot-reply\"; L \"destroy-all\"]", "L \"bot-reply\"; L \"status\"; L \"destroy-all\"]", "C92", "a command is added twice")
mut("RecObj.v", "get_recommendation", "(cf_pref c) reply_to_enc)", "(cf_pref c) false)", "C93", "the object forgets that this is a reply to an encrypted mail")
mut("RecObj.v", "ro_ui", "ui_recommendation (ro_pref o) (ro_reply o) (map snd (ro_peers o))", "ui_recommendation (L \"nopreference\") (ro_reply o) (map snd (ro_peers o))", "C93", "the own preference is not passed on")
mut("RecObj.v", "ro_ui", "(map snd (ro_peers o))", "(map snd (firstn 1 (ro_peers o)))", "C93", "only the first peer counts")
mut("RecObj.v", "ro_handles", "target_keyhandles (ro_peers o)", "target_keyhandles (rev (tl (ro_peers o)))", "C93", "a recipient is left out of the key handles")
mut("Click.v", "find_short", "is_short m && text_eqb m [45%N; c]", "text_eqb m [c; 45%N]", "C79", "short options are not found")
mut("Click.v", "opt_use_key", "Opt [L \"--use-key\"] (L \"use_key\") true", "Opt [L \"--use-key\"] (L \"use_key\") false", "C79", "--use-key takes no value")
mut("Click.v", "opt_system", "Opt [L \"--use-system-keyring\"] (L \"use_system_keyring\") false", "Opt [L \"--system-keyring\"] (L \"use_system_keyring\") false", "C79", "another name for --use-system-keyring")
mut("Click.v", "opt_gpgbin", "Opt [L \"--gpgbin\"] (L \"gpgbin\") true", "Opt [L \"--gpgbin\"] (L \"gpg\") true", "C79", "the value of --gpgbin gets lost")
mut("Click.v", "opt_reparse", "Opt [L \"--reparse\"] (L \"reparse\") false", "Opt [L \"--reparse\"] (L \"reparse\") true", "C79", "--reparse takes a value")
mut("Click.v", "no_arg", "match args with [] => Some i | _ => None end.", "Some i.", "C79", "superfluous arguments are ignored")
mut("Click.v", "one_arg", "match args with [x] => Some (i x) | _ => None end.", "match args with x :: _ => Some (i x) | _ => None end.", "C79", "superfluous arguments are ignored after the first")
mut("Click.v", "maybe_arg", "match args with [] => Some (i None) | [x] => Some (i (Some x)) | _ => None end.", "match args with [x] => Some (i (Some x)) | _ => None end.", "C79", "an optional argument is required")
mut("Click.v", "mycommand", "Decl name (os ++ [opt_help]) false true make.", "Decl name (os ++ [opt_help]) true true make.", "C79", "every command passes unknown options on")
mut("Click.v", "d_del_account", "mycommand (L \"del-account\") [opt_account] (fun os => no_arg (IDel (name_of os)))", "mycommand (L \"del-account\") [opt_account] (fun os => no_arg (IDel (L \"default\")))", "C79", "del-account always deletes the default account")
mut("Click.v", "d_scandir_incoming", "IScandir d (is_set os (L \"reparse\"))", "IScandir d (negb (is_set os (L \"reparse\")))", "C79", "--reparse is turned around")
mut("Click.v", "d_make_header", "IMakeHeader (is_set os (L \"val\"))", "IMakeHeader false", "C79", "--val is ignored")
mut("Click.v", "d_export_secret_key", "(fun os => no_arg (IExportSecret (name_of os)))", "(fun os => no_arg (IExport (name_of os) None))", "C79", "export-secret-key exports the public key")
mut("Click.v", "main_words", "| [] => inl ShowHelp", "| [] => inl BadUsage", "C79", "no arguments at all is an error")
mut("Click.v", "chosen_dir", "match option_ with Some d => d | None => match environment with Some d => d | None => usual end end.", "match environment with Some d => d | None => match option_ with Some d => d | None => usual end end.", "C79", "the environment variable is preferred to --basedir")
mut("Cmdline.v", "cli_status", "a <- get_account n true ;; cli_status_account a verbose) names", "a <- get_account n true ;; cli_status_account a verbose) (firstn 1 names)", "C61", "status shows one account")
mut("Cmdline.v", "py_take", "if Z.ltb i 0 then firstn (Z.to_nat (Z.of_nat (length s) + i)) s else firstn (Z.to_nat i) s", "firstn (Z.to_nat i) s", "C60", "a negative position means the start")
mut("Commands.v", "field16", "pad 16 name ++ L \" \" ++ value", "pad 16 name ++ value", "C61", "no space between name and value in status")
mut("Bot.v", "indent_text", "repeat (L \"  \") n", "repeat (L \" \") n", "C58", "half the indentation")
mut("Gpg.v", "vclass_of", "if is_digit c then CDigit else if is_lower_az c then CLetter else if N.eqb c 46 then CDot else COther.", "if is_digit c then CDigit else if is_lower_az c then CLetter else COther.", "C78", "the dots of a version are parts of it")
mut("Gpg.v", "isgpg2", "Definition isgpg2 (path : text) : result bool := rbind (gpg_version path) (fun v => version_ge v [VNum 2; VNum 0])", "Definition isgpg2 (path : text) : result bool := rbind (gpg_version path) (fun v => version_ge v [VNum 2; VNum 1])", "C78", "2.0 does not count as gpg 2")
mut("Gpg.v", "is_hex", "(N.leb 48 c && N.leb c 57) || (N.leb 65 c && N.leb c 70).", "(N.leb 48 c && N.leb c 57).", "C78", "key ids are made of digits only")
mut("Gpg.v", "parse_list", "lift (parse_lines t0 t1 [] (splitlines out))", "lift (parse_lines t1 t0 [] (splitlines out))", "C73", "main keys and sub keys are mixed up")
mut("Gpg.v", "re_any", "| _ :: s' => match re_any k s' with Some r => Some r | None => k s end", "| _ :: s' => match k s with Some r => Some r | None => re_any k s' end", "C83", "lazy instead of greedy matching")
mut("GpgMore.v", "list_packets", "gpg_outerr g [L \"--list-packets\"] (Some keydata) None false true", "gpg_outerr g [L \"--list-packets\"] (Some keydata) None true true", "C78", "messages make the listing of packets fail")
mut("Mime.v", "pah_error", "PAH None None None None (Some e).", "PAH None None None (Some []) (Some e).", "C26", "a faulty header has attributes")
mut("MimeTree.v", "part_subject", "match hget m (L \"subject\") with Some v => L \" (Subject: \" ++ v ++ L \")\" | None => [] end.", "match hget m (L \"subject\") with Some v => L \" (Subject: \" ++ v | None => [] end.", "C80", "a closing parenthesis is missing")
mut("MimeTree.v", "render_mime_structure", "render m [c_last].", "render m [].", "C80", "the root is drawn without a branch")
mut("PyStr.v", "rstrip", "rev (lstrip (rev s)).", "lstrip s.", "C26", "rstrip strips at the left")
mut("PyStr.v", "startswith", "| [], _ => true\n  | x :: p', y :: s' => N.eqb x y && startswith p' s'", "| [], _ :: _ => true\n  | [], [] => false\n  | x :: p', y :: s' => N.eqb x y && startswith p' s'", "C26", "a text does not start with itself")
mut("PyStr.v", "is_linebreak", "(N.leb 10 c && N.leb c 13) ||", "(N.leb 10 c && N.leb c 12) ||", "C73", "carriage return does not end a line")
mut("Fs.v", "read_chain", "if nonempty cid then (k <- perform FCountBlocks ;; walk (S k) cid) else Ret []", "k <- perform FCountBlocks ;; walk k cid", "C01", "the last block is not read")
mut("Fs.v", "impl", "| CHeads => heads <- getheads ;; Ret (dkeys heads)", "| CHeads => heads <- getheads ;; Ret (rev (dkeys heads))", "C01", "names are listed in another order")
mut("States.v", "peer_chain", "peer_prefix acct ++ addr.", "peer_prefix acct ++ lower addr.", "C17", "peers are stored under lower-case names")
mut("States.v", "eq_opt", "match arg with Some x => text_eqb stored x | None => false end.", "match arg with Some x => text_eqb stored x | None => true end.", "C39", "a missing value counts as the stored one")
mut("States.v", "gossip_entries", "EGossip e => e :: gossip_entries l' | _ => gossip_entries l' end", "EGossip e => gossip_entries l' ++ [e] | _ => gossip_entries l' end", "C12", "the oldest gossip counts")
mut("Account.v", "account_exists", "Ret (is_configured l).", "Ret (negb (match l with [] => true | _ => false end)).", "C39", "an account exists as soon as something is recorded")
mut("Reads.v", "r_has_direct_key", "e <- r_ac_entry chain ;; Ret (match e with Some e => nonempty (me_kh e) | None => false end)", "e <- r_ac_entry chain ;; Ret (match e with Some e => nonempty (me_keydata e) | None => false end)", "C87", "the key data decides instead of the key handle")
mut("Reads.v", "r_target_keyhandles", "kh <- r_keyhandle c ;; Ret (addr, kh)) peers", "kh <- r_keyhandle addr ;; Ret (addr, kh)) peers", "C87", "the address is taken for the name of the log")
mut("Reads.v", "r_gossip_recipient", "r_update_from_msg_gossip (peerstate_chain acct recipient) id date (p_keydata p') kh", "r_update_from_msg_gossip (peerstate_chain acct recipient) id date (p_keydata p) kh ;;; r_update_from_msg_gossip (peerstate_chain acct recipient) id date (p_keydata p') kh", "C87", "gossip is recorded twice")
mut("Live.v", "live_encrypt", "lbind (plain (gpg_encrypt g clear_data khs own))", "lbind (plain (gpg_encrypt g clear_data khs (hd own khs)))", "C86", "a kept object signs with the key of a recipient")
mut("Live.v", "live_import_key", "lcatch (lbind (plain (import_keydata g kd false))", "lcatch (lbind (plain (import_keydata g kd true))", "C86", "a kept object imports with an option that it should not use")

mut("EmailText.v", "mangle", "[62%N] else []", "[62%N; 32%N] else []", "C94", "lines that begin with From get a quotation mark and a blank")
mut("EmailText.v", "mangle", "(if bol && startswith (L \"From \") t then", "(if bol && startswith (L \"From\") t then", "C94", "words that begin with From are changed too")
mut("EmailText.v", "mangle", "c :: mangle (N.eqb c 10) t'", "c :: mangle false t'", "C94", "only the first line is looked at")
mut("EmailText.v", "written_text", "if quote then Ok (heads ++ norm_nl (mangle true t))", "if quote then Ok (heads ++ norm_nl t)", "C94", "lines are written as they are (this would be better)")
mut("EmailText.v", "norm_nl", "if N.eqb c 13 then (if at_lf t' then norm_nl t' else 10%N :: norm_nl t') else c :: norm_nl t'", "if N.eqb c 13 then 10%N :: norm_nl t' else c :: norm_nl t'", "C94", "CR LF is written as two line ends")
mut("EmailText.v", "norm_nl", "if N.eqb c 13 then (if at_lf t' then norm_nl t' else 10%N :: norm_nl t') else c :: norm_nl t'", "c :: norm_nl t'", "C94", "CR is kept")
mut("EmailText.v", "to_bytes", "else if escaped c then rbind (to_bytes t') (fun b => Ok ((c - 56320)%N :: b))\n    else Err UnicodeError", "else rbind (to_bytes t') (fun b => Ok (63%N :: b))", "C94", "characters other than ASCII become question marks")
mut("EmailText.v", "from_bytes", "(c + 56320)%N) b.", "c) b.", "C94", "bytes are read as Latin-1")
mut("EmailText.v", "write_field", "fst f ++ L \": \" ++ snd f", "fst f ++ L \":\" ++ snd f ++ L \" \"", "C94", "the blank is at the wrong place")
mut("EmailText.v", "first_fits", "Nat.leb (length n + 2 + length l) 78", "Nat.leb (length n + 2 + length l) 70", "C94", "header lines are folded too early")
mut("EmailText.v", "next_fits", "(wide || Nat.leb (length l) 78 || negb (existsb blank (drop_blanks l)))", "(wide || Nat.leb (length l) 78)", "C94", "long words are broken")
mut("EmailText.v", "in_parts", "[10%N] ++ L \"--\" ++ b ++ L \"--\" ++ [10%N].", "[10%N] ++ L \"--\" ++ b ++ [10%N].", "C94", "the last delimiter looks like the others")
mut("EmailText.v", "in_parts", "join ([10%N] ++ L \"--\" ++ b ++ [10%N]) ts", "join (L \"--\" ++ b ++ [10%N]) ts", "C94", "no line end before a delimiter")
mut("EmailText.v", "mail_text", "rbind (rall (mail_text quote (wide || w)) ps) (fun ts => Ok (heads ++ in_parts (c :: bd') ts))", "rbind (rall (mail_text quote (wide || w)) ps) (fun ts => Ok (heads ++ in_parts (c :: bd') (rev ts)))", "C94", "parts are written in reverse order")
mut("EmailText.v", "cleansed", "PStr (chomp t)", "PStr t", "C94", "the line end before a delimiter stays")
mut("EmailText.v", "cleansed", "PStr (chomp t)", "PStr (rstrip t)", "C94", "all white space before a delimiter is dropped")
mut("EmailText.v", "delim", "if forallb blank_or_tab r then Some false", "if true then Some false", "C94", "a line that only begins like a delimiter is one")
mut("EmailText.v", "part_lines", "if fresh then part_lines b true ls' else if last", "if last", "C94", "an empty part between two delimiters")
mut("EmailText.v", "first_part", "Some false => Some ls'", "Some false => Some ls", "C94", "the first delimiter is taken for a line of the first part")
mut("EmailText.v", "head_lines", "else if at_eol l then ([], ls') else ([], ls)", "else ([], ls)", "C94", "the empty line after the header is part of the text")
mut("EmailText.v", "field_value", "drop_while blank_or_tab (after_colon l) ++ concat more", "after_colon l ++ concat more", "C94", "values begin with a blank")
mut("EmailText.v", "field_value", "drop_end (fun c => N.eqb c 10 || N.eqb c 13)", "drop_end is_space", "C94", "values are stripped at the end")
mut("EmailText.v", "field_lines", "if continues l then (l :: more, fs)", "if continues l then ([], fs)", "C94", "only the last line of a folded field counts")
mut("EmailText.v", "kind_of", "if text_eqb (main_type ct) (L \"multipart\") then", "if text_eqb ct (L \"multipart/mixed\") then", "C94", "only multipart/mixed has parts")
mut("EmailText.v", "chomp", "match r with d :: r' => if N.eqb d 13 then rev r' else rev r | [] => [] end", "match r with _ :: r' => rev r' | [] => [] end", "C94", "two characters are taken for the line end")
mut("EmailText.v", "keep_lines", "if N.eqb c 10 || (N.eqb c 13 && negb (at_lf t')) then", "if N.eqb c 10 || N.eqb c 12 || (N.eqb c 13 && negb (at_lf t')) then", "C94", "form feed ends a line")
mut("EmailText.v", "named_line", "N.eqb c 58 || (name_char c && named_line l')", "N.eqb c 58 || named_line l'", "C94", "any line with a colon is a header line")
mut("EmailText.v", "written_text", "else if has_surrogates t then other else Ok (heads ++ norm_nl t)", "else if has_surrogates t then other else Ok (heads ++ norm_nl (mangle true t))", "C95", "From lines are quoted when a mail is sent")
mut("EmailText.v", "written_text", "else if has_surrogates t then other else Ok (heads ++ norm_nl t)", "else if has_surrogates t then other else Ok (heads ++ t)", "C95", "CR is kept when a mail is sent")
mut("EmailText.v", "set_boundary", "else f) h\n  | None => h", "else f) (rev h)\n  | None => h", "C95", "header fields are turned round when a boundary is added")
mut("EmailText.v", "set_boundary", "(fst f, with_boundary v b) else f", "(fst f, with_boundary (snd f) b) else (fst f, [])", "C95", "other fields are emptied when a boundary is added")
mut("EmailText.v", "mail_text", "(set_boundary nb h)) ++ [10%N]) ++ in_parts nb ts))", "h) ++ [10%N]) ++ in_parts nb ts))", "C95", "the new boundary is not in the header")
mut("EmailText.v", "mail_text", "++ [10%N]) ++ in_parts nb ts))", "++ [10%N]) ++ in_parts nb (rev ts)))", "C95", "parts of a mail without boundary are written in reverse order")
mut("EmailText.v", "mail_string", "mail_text false true m", "mail_text false false m", "C95", "long header lines are folded when a mail is sent")
mut("EmailText.v", "first_fits", "(wide || Nat.leb (length n + 2 + length l) 78)", "Nat.leb (length n + 2 + length l) 78", "C95", "long header lines are folded when a mail is sent")
mut("Mime.v", "is_encrypted", "if text_eqb (get_content_type m) (L \"multipart/encrypted\") then", "if text_eqb (hd [] (hget_all m (L \"content-type\"))) (L \"multipart/encrypted; protocol=\"\"application/pgp-encrypted\"\"\") then", "C95", "the content type is compared with its parameters")
mut("Account.v", "decrypt_mime", "| PBytes s | PStr s => if is_ascii s then Ret s else Raise UnicodeError", "| PBytes s => if is_ascii s then Ret s else Raise UnicodeError\n                | PStr s => if is_ascii s then Ret (strip s) else Raise UnicodeError", "C95", "ciphertext from a parsed mail is stripped")
mut("Account.v", "export_public_key", "get_public_keydata g h true.", "get_public_keydata g h true ;;; get_public_keydata g h true.", "C96", "the key is exported twice")
mut("Account.v", "export_secret_key", "get_secret_keydata g kh true.", "get_secret_keydata (BinGPG None (gp_path g)) kh true.", "C96", "the secret key is taken from the system key ring")
mut("Account.v", "encrypt_mime", "  enc_data <- gpg_encrypt g clear_data khs own ;;", "  gpg_encrypt g clear_data khs own ;;;\n  enc_data <- gpg_encrypt g clear_data khs [] ;;", "C96", "a second encryption, without signature, is what is sent")
mut("Account.v", "encrypt_mime", "  enc_data <- gpg_encrypt g clear_data khs own ;;", "  enc_data <- gpg_encrypt (BinGPG None (gp_path g)) clear_data khs own ;;", "C96", "encryption uses the system key ring")
mut("Account.v", "decrypt_mime", "    '(dec, infos) <- gpg_decrypt g enc_data ;;", "    '(dec, infos) <- catch (gpg_decrypt g enc_data) (fun e => match e with InvocationFailure => Some (gpg_decrypt (BinGPG None (gp_path g)) enc_data) | _ => None end) ;;", "C96", "if decryption fails, the system key ring is tried")
mut("Gpg.v", "gpg_encrypt", "  Ret out.\n\n(** bingpg.py:349", "  Ret (strip out).\n\n(** bingpg.py:349", "C96", "the output of gpg is stripped")
# C97
mut("Account.v", "import_key", "import_keydata g kd false", "import_keydata (BinGPG None (gp_path g)) kd false", "C97", "keys of peers go into the system key ring")
mut("Gpg.v", "find_keyhandle", "l <- list_public_keyinfos g x ;;", "l <- list_public_keyinfos (BinGPG None (gp_path g)) x ;;", "C97", "short ids are looked up in the system key ring")
mut("Account.v", "import_keydata_as_autocrypt", "          kd <- get_public_keydata g kh false ;;\n          update", "          kd <- get_public_keydata g a false ;;\n          update", "C97", "the key recorded is the one exported under the address")
mut("Gpg.v", "import_keydata", "  kh <- find_keyhandle g err ;;\n  if minimize", "  kh <- catch (find_keyhandle g err) (fun e => match e with AssertionError => Some (Ret (L \"0\")) | _ => None end) ;;\n  if minimize", "C97", "a handle is made up when gpg names none")
# C98
mut("States.v", "update_from_msg", "        e <- lift (mk_msg_entry id date pref kd' (match kh with Some h => h | None => [] end)) ;;\n        perform (CAppend chain e).", "        e0 <- lift (mk_msg_entry id date (Some (L \"nopreference\")) [] []) ;;\n        perform (CAppend chain e0) ;;;\n        e <- lift (mk_msg_entry id date pref kd' (match kh with Some h => h | None => [] end)) ;;\n        perform (CAppend chain e).", "C98", "a mail with a key is recorded first without and then with the key")
mut("Account.v", "create", "  keydata <- get_secret_keydata g kh' false ;;\n  append_keygen acct keydata kh'.", "  append_keygen acct [] kh' ;;;\n  keydata <- get_secret_keydata g kh' false ;;\n  append_keygen acct keydata kh'.", "C98", "the handle of a new account is recorded before its key is exported")
mut("States.v", "change_config", "    else perform (CAppend (own_chain acct) e) ;;; Ret true", "    else perform (CRemoveIf (text_eqb (own_chain acct))) ;;; perform (CAppend (own_chain acct) e) ;;;\n      match latest_keygen l with Some k => perform (CAppend (own_chain acct) (EKeygen k)) | None => Ret tt end ;;; Ret true", "C98", "new settings replace the old chain, the key is recorded again")
mut("Account.v", "add_account", "    create a (match regex", "    remove_account a ;;;\n    create a (match regex", "C98", "left-overs of an account with the same name are removed first")
mut("Account.v", "process_incoming", "    p <- process_autocrypt_header acct m from chain date id ;;", "    update_from_msg chain id date None None None ;;;\n    p <- process_autocrypt_header acct m from chain date id ;;", "C98", "that a mail was seen is recorded before its header is looked at")
mut("Account.v", "mod_account", "  changed <- change_config a pref regex gpgbin ;;", "  change_config a pref None None ;;;\n  changed <- change_config a None regex gpgbin ;;", "C36", "settings are changed in two records")
mut(G2, "gpg_sign", "(Some data) None false false", "(Some data) None true false", "C78", "a warning of gpg makes signing fail")
mut(G2, "gpg_verify", "(Some data) (Some signature) false true", "(Some data) (Some signature) false false", "C78", "output of gpg that is not UTF-8 is accepted by verify")
mut(C2, "cmd_sendmail", "L \" exitcode, path: \" ++ sendmail_path]", "L \" exitcode, path: \" ++ hd [] args]", "C62", "the message about a failure names the first argument as the path")
mut(K, "no_command", "ascii_alnum_cp c || negb (is_ascii_cp c)", "true", "C84", "every unknown command is an error, also one that looks like an option")
