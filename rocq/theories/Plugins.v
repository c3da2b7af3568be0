(** Plugins (hookspec.py): the two hooks that are called with mail, and the calls of the account
    that call them.  Account.v has the same calls without plugins.
    Simplifications: a plugin may look at anything, but what it does to the state directory and
    to key rings is not modelled, so a plugin is a function of the arguments of the hook.  The
    arguments are objects it may change; what it left in them is the result.  The hooks
    [add_subcommands] and [instantiate_account] (hookspec.py:7-14) get no mail and are left out. *)
From Verif Require Import Base PyStr Env Prog Chain Gpg Mime States Recommendation Account Cmdline Bot Fs Api.

Section Plugins.
Context {E : Env}.

(** hookspec.py:17-40.  [on_gossip addr2pagh account_key dec_msg],
    [before_encryption sender_addr sender_keyhandle recipient2keydata payload_msg] *)
Record plugin := Plugin {
  on_gossip : dict pah -> text -> msg -> result (dict pah * msg);
  before_encryption : text -> text -> dict bytes -> msg -> result (dict bytes * msg) }.

(** pluggy calls one plugin after the other, all with the same objects; an exception ends the
    call *)
Fixpoint gossip_hook (ps : list plugin) (d : dict pah) (key : text) (m : msg) : result (dict pah) :=
  match ps with
  | [] => Ok d
  | p :: ps' => rbind (on_gossip p d key m) (fun r => gossip_hook ps' (fst r) key (snd r))
  end.
Fixpoint encryption_hook (ps : list plugin) (from key : text) (d : dict bytes) (m : msg) : result msg :=
  match ps with
  | [] => Ok m
  | p :: ps' => rbind (before_encryption p from key d m) (fun r => encryption_hook ps' from key (fst r) (snd r))
  end.

(** account.py:321-356 process_incoming *)
Definition process_incoming_with (ps : list plugin) (acct : text) (m : msg) (ignore_existing no_decrypt : bool) : prog cop (option incoming) :=
  let from := parse_email_addr (hget m (L "From")) in
  let chain := peerstate_chain acct from in
  d <- lift (parse_date_to_float (hget m (L "Date"))) ;;
  date <- effective_date d ;;
  let id := msg_id_text m in
  l <- perform (CRead chain) ;;
  if ignore_existing && has_message l id then Ret None
  else
    p <- process_autocrypt_header acct m from chain date id ;;
    enc <- (if no_decrypt then Ret false else lift (is_encrypted m)) ;;
    gossip <- (if enc then
                 '(dec, _) <- decrypt_mime acct m ;;
                 gp <- process_gossip_headers acct dec date id ;;
                 key <- own_keyhandle acct ;;
                 lift (gossip_hook ps gp key dec)
               else Ret []) ;;
    Ret (Some (Incoming id date chain acct p gossip)).

(** account.py:496-509, one recipient; the state is (keyhandles, recipient2keydata,
    clear_payload_msg) *)
Definition encrypt_recipient_with (acct : text) (st : list text * dict bytes * msg) (addr : text) : prog cop (list text * dict bytes * msg) :=
  let '(khs, keys, clear) := st in
  l <- perform (CRead (peerstate_chain acct addr)) ;;
  let kh := public_keyhandle l in
  if negb (nonempty kh) then
    c <- own_config acct ;;
    b <- lift (re_match (cf_regex c) addr) ;;
    if b then
      own <- own_keyhandle acct ;;
      Ret (khs ++ [own], keys, clear)
    else Raise ValueError
  else
    v <- lift (make_ac_header_value addr (public_keydata l) (L "nopreference")) ;;
    Ret (khs ++ [kh], dset keys addr (public_keydata l), hadd clear (L "Autocrypt-Gossip") v).

(** account.py:482-529 encrypt_mime *)
Definition encrypt_mime_with (ps : list plugin) (acct : text) (m : msg) (toaddrs : list text) : prog cop (msg * list text) :=
  assert_ (nonempty toaddrs) ;;;
  '(khs, keys, clear) <- foldM (encrypt_recipient_with acct)
                         (map (fun t => parse_email_addr (Some t)) toaddrs)
                         ([], [], make_content_message_from_email m) ;;
  own <- own_keyhandle acct ;;
  payload <- lift (encryption_hook ps (parse_email_addr (hget m (L "From"))) own keys clear) ;;
  clear_data <- lift (flatten payload) ;;
  g <- get_bingpg acct ;;
  enc_data <- gpg_encrypt g clear_data khs own ;;
  let enc := make_message (L "application/pgp-encrypted") (PStr (L "version: 1")) in
  let data := make_message (L "application/octet-stream") (PBytes enc_data) in
  let newmsg := make_message encrypted_ctype (PParts [enc; data]) in
  Ret (transfer_non_content_headers m newmsg, khs).

(** account.py:441-480 process_outgoing *)
Definition process_outgoing_with (ps : list plugin) (acct : text) (m : msg) : prog cop outgoing :=
  '(enc_header, m) <-
     match hget m (L "ENCRYPT") with
     | Some h =>
       assert_ (mem_text (strip h) [L "opportunistic"; L "yes"; L "no"]) ;;;
       Ret (Some (strip h), hdel m (L "ENCRYPT"))
     | None => Ret (None, m)
     end ;;
  let addr := parse_email_addr (hget m (L "From")) in
  '(added, m) <-
     (if hin m (L "Autocrypt") then Ret (None, m)
      else v <- make_ac_header acct addr ;; Ret (Some v, hadd m (L "Autocrypt") v)) ;;
  b <- lift (is_encrypted m) ;;
  m <- (if b then Ret m
        else
          let recipients := get_target_emailadr m in
          match hget_all m (L "From") with
          | [f] =>
            let from_addr := parse_email_addr (Some f) in
            rec <- recommend acct (map Some recipients) false (Some from_addr) ;;
            let recipients := if mem_text from_addr recipients then recipients
                              else recipients ++ [from_addr] in
            if otext_eqb enc_header (Some (L "no")) then Ret m
            else if otext_eqb rec (Some (L "encrypt"))
                    || (negb (otext_eqb rec (Some (L "disable"))) && otext_eqb enc_header (Some (L "yes")))
            then '(em, _) <- encrypt_mime_with ps acct m recipients ;; Ret em
            else if otext_eqb enc_header (Some (L "yes")) then Raise ValueError
            else Ret m
          | _ => Raise AssertionError
          end) ;;
  Ret (Outgoing m acct addr added (hget m (L "Autocrypt"))).

(** the calls with plugins registered; those of the command line and the bot, which process mail
    in the same way, are left out *)
Definition exec_with (ps : list plugin) (c : api) : prog cop outcome :=
  match c with
  | AIncoming n m ign nodec => with_account n (fun a => i <- process_incoming_with ps a m ign nodec ;; Ret (OIncoming i))
  | AOutgoing n m => with_account n (fun a => o <- process_outgoing_with ps a m ;; Ret (OOutgoing o))
  | AEncrypt n m to => with_account n (fun a => '(em, khs) <- encrypt_mime_with ps a m to ;; Ret (OEncrypted em khs))
  | _ => exec c
  end.
End Plugins.
