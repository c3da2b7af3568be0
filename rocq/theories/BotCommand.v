(** /repo/muacrypt/bot.py:20-131: the bot-reply command with the report it writes and the
    delivery of the reply.  [Bot.bot_reply] has the text of the report as an argument; here it
    is computed on the way. *)
From Verif Require Import Base PyStr Env Prog Chain Gpg Mime States Recommendation Account Cmdline Bot MimeTree Commands.

(** What the command uses in addition to [Env] and [Shell]. *)
Class Post := {
  (** how the email package shows parts of a mail *)
  parts_shown : display;
  (** traceback.format_exc() for an exception *)
  traceback : exn -> text;
  (** str() of the list of KeyInfo objects of a decryption, bingpg.py:384-388 *)
  infos_text : list (text * text) -> text;
  (** int() of a text *)
  int_of : text -> result Z;
  (** smtplib: connect to host and port, send from, to and text *)
  smtp_send : text -> Z -> text -> list text -> text -> result unit
}.

(** What is left when the command ends: the lines printed, and the mail sent: server, port,
    sender, recipients, text. *)
Record posted := Posted { po_lines : list text; po_mail : option (text * Z * text * list text * text) }.

Section BotCommand.
Context {E : Env} {Sh : Shell} {Po : Post}.

(** bot.py:65-70 one header *)
Definition shown_headers : list text :=
  [L "Message-ID"; L "Delivered-To"; L "From"; L "To"; L "Subject"; L "Date"; L "DKIM-Signature"; L "Autocrypt"].
Definition header_text (m : msg) (hn : text) : text :=
  match hget m hn with
  | Some v => pad 15 (hn ++ L ":") ++ L " " ++ trunc_string (flat_map (fun c => if N.eqb c 10 then L "\n" else [c]) v) 60
  | None => pad 15 hn ++ L " NOTFOUND"
  end.

(** bot.py:56-73 the report up to the structure of the mail *)
Definition log_found (m : msg) (delivto : text) : simplelog :=
  let log := fst (log_section (L "reading headers") true traceback
                    (fun s => (log_call s (L "determined Delivered-To: " ++ delivto), Ok tt)) (SLog [] 0)) in
  let log := fst (log_section (L "Got your mail, here is what i found in headers:") false traceback
                    (fun s => (fold_left (fun s hn => log_call s (header_text m hn)) shown_headers s, Ok tt)) log) in
  fst (log_section (L "And this is the mime structure i saw:") false traceback
         (fun s => match render_mime_structure parts_shown m with
                   | Ok t => (log_call s t, Ok tt)
                   | Err e => (s, Err e)
                   end) log).

(** bot.py:77-85 what processing found; [l] is the log of the peer *)
Definition log_processed (i : incoming) (l : list block) (log : simplelog) : simplelog :=
  log_call
    (fst (log_section (L "processed incoming mail for account " ++ in_acct i ++ L ":") false traceback
       (fun s => (match p_error (in_pah i) with
                  | Some e => if nonempty e then log_call s e
                              else log_call s (L "found peeraddr=" ++ peer_addr (in_chain i) ++ L " keyhandle=" ++ public_keyhandle l
                                               ++ L " prefer_encrypt=" ++ peer_prefer_encrypt l)
                  | None => log_call s (L "found peeraddr=" ++ peer_addr (in_chain i) ++ L " keyhandle=" ++ public_keyhandle l
                                        ++ L " prefer_encrypt=" ++ peer_prefer_encrypt l)
                  end, Ok tt)) log))
    [10%N].

(** bot.py:20-24 send_reply, bot.py:126-131.  Connecting to the server comes before as_string in the code;
    here it is part of [smtp_send]. *)
Definition deliver (smtp : option text) (m : msg) : result posted :=
  match smtp with
  | Some (c :: t) =>
    match split_on 44 (c :: t) with
    | [host; port] =>
      rbind (int_of port) (fun p =>
      rbind (as_string m) (fun t' =>
      match hget m (L "From") with
      | None => Err TypeError
      | Some from =>
        rbind (smtp_send host p from (get_target_emailadr m) t') (fun _ =>
        Ok (Posted [L "send reply through smtp: " ++ c :: t] (Some (host, p, from, get_target_emailadr m, t'))))
      end))
    | _ => Err ValueError
    end
  | _ => rbind (as_string m) (fun t => Ok (Posted [t] None))
  end.

(** bot.py:35-131 bot_reply *)
Definition bot_command (smtp fallback : option text) (m : msg) : prog cop posted :=
  delivto <- lift (get_delivered_to m fallback) ;;
  let log := log_found m delivto in
  acct <- get_account_from_emailadr delivto false ;;
  match acct with
  | None => Raise AttributeError
  | Some a =>
    r <- process_incoming a m false false ;;
    match r with
    | None => Raise AttributeError
    | Some i =>
      l <- perform (CRead (in_chain i)) ;;
      let log := log_processed i l log in
      '(log, reply_to_enc) <-
        (if text_eqb (get_content_type m) (L "multipart/encrypted") then
           let log := log_call log (L "Your message was encrypted.") in
           '(_, infos) <- decrypt_mime a m ;;
           Ret (log_call log (L "It was encrypted to the following keys:" ++ infos_text infos), true)
         else Ret (log, false)) ;;
      let log := log_call (log_call log (L "have a nice day, " ++ delivto)) [] in
      kh <- own_keyhandle a ;;
      let log := log_call log (L "P.S.: my current key " ++ kh ++ L " is in the Autocrypt header of this reply.") in
      rec <- recommend a [hget m (L "From")] reply_to_enc None ;;
      let log := log_call log (L "P.P.S.: For this reply the encryption recommendation is "
                               ++ match rec with Some q => q | None => L "None" end) in
      match hget m (L "To") with
      | None => Raise TypeError
      | Some to =>
        if negb (contains delivto to) then Ret (Posted [] None)
        else
          cc <- lift (format_others delivto (set_order (get_target_fulladr m))) ;;
          ac <- make_ac_header a delivto ;;
          match hget m (L "From") with
          | None => Raise TypeError
          | Some from =>
            id <- perform CUuid ;;
            now <- perform CTime ;;
            let reply := gen_reply delivto from cc id
                           (L "Re: " ++ match hget m (L "Subject") with Some s => s | None => [] end)
                           (formatdate now)
                           (match hget m (L "Message-ID") with Some i => i | None => [] end) ac
                           (join [10%N] (sl_lines log)) in
            reply <- (if otext_eqb rec (Some (L "encrypt")) then
                        '(em, _) <- encrypt_mime a reply (from :: cc) ;;
                        b <- lift (is_encrypted em) ;;
                        assert_ b ;;;
                        Ret em
                      else Ret reply) ;;
            lift (deliver smtp reply)
          end
      end
    end
  end.

End BotCommand.
