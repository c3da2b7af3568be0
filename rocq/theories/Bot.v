(** /repo/muacrypt/bot.py *)
From Verif Require Import Base PyStr Env Prog Chain Gpg Mime States Recommendation Account.

Section Bot.
Context {E : Env}.

(** mime.py:212-256 gen_mail_msg as called by the bot.  The three headers that MIMEText sets
    come first.  add_header with value None stores an empty value. *)
Definition gen_reply (from : text) (to : text) (cc : list text) (msgid subject date in_reply_to autocrypt body : text) : msg :=
  Msg ([(L "Content-Type", L "text/plain; charset=""utf8""");
        (L "MIME-Version", L "1.0");
        (L "Content-Transfer-Encoding", L "base64");
        (L "From", from);
        (L "To", to)]
       ++ (if nonempty cc then [(L "Cc", join (L ",") cc)] else [])
       ++ [(L "Message-ID", msgid);
           (L "Subject", subject);
           (L "Date", date);
           (L "In-Reply-To", in_reply_to);
           (L "Autocrypt", autocrypt)])
      (mimetext body).

(** bot.py:109-113: everybody addressed except the bot itself *)
Fixpoint format_others (delivto : text) (l : list (text * text)) : result (list text) :=
  match l with
  | [] => Ok []
  | (realname, addr) :: l' =>
    if nonempty addr && negb (text_eqb addr delivto) then
      rbind (formataddr (realname, addr)) (fun s => rbind (format_others delivto l') (fun r => Ok (s :: r)))
    else format_others delivto l'
  end.

(** bot.py:35-131 bot_reply.  [body] stands for the text of the log (lines 56-102), which is
    only printed into the reply.  Result: the reply, if any.  The report and the delivery are in
    BotCommand.v; the random Message-ID is drawn from the uuid source.  Lines 61-73 (display of
    headers and structure) catch their own exceptions. *)
Definition bot_reply (fallback : option text) (body : text) (m : msg) : prog cop (option msg) :=
  delivto <- lift (get_delivered_to m fallback) ;;
  acct <- get_account_from_emailadr delivto false ;;
  match acct with
  | None => Raise AttributeError
  | Some a =>
    r <- process_incoming a m false false ;;
    match r with
    | None => Raise AttributeError
    | Some _ =>
      reply_to_enc <- (if text_eqb (get_content_type m) (L "multipart/encrypted")
                       then decrypt_mime a m ;;; Ret true else Ret false) ;;
      own_keyhandle a ;;;
      rec <- recommend a [hget m (L "From")] reply_to_enc None ;;
      match hget m (L "To") with
      | None => Raise TypeError
      | Some to =>
        if negb (contains delivto to) then Ret None
        else
          cc <- lift (format_others delivto (set_order (get_target_fulladr m))) ;;
          ac <- make_ac_header a delivto ;;
          match hget m (L "From") with
          | None => Raise TypeError
          | Some from =>
            id <- perform CUuid ;;
            now <- perform CTime ;;
            let reply := gen_reply delivto from cc id
                           (L "Re: " ++ match hget m (L "Subject") with Some s => s | None => [] end)
                           (formatdate now)
                           (match hget m (L "Message-ID") with Some i => i | None => [] end) ac body in
            if otext_eqb rec (Some (L "encrypt")) then
              '(em, _) <- encrypt_mime a reply (from :: cc) ;;
              b <- lift (is_encrypted em) ;;
              assert_ b ;;;
              Ret (Some em)
            else Ret (Some reply)
          end
      end
    end
  end.

(** ** bot.py:134-171 SimpleLog *)
Record simplelog := SLog { sl_lines : list text; sl_indent : nat }.

Definition indent_text (n : nat) : text := concat (repeat (L "  ") n).

(** 143-148 __call__ *)
Definition log_call (s : simplelog) (m : text) : simplelog :=
  let lines := match splitlines m with [] => [[]] | l => l end in
  SLog (sl_lines s ++ map (fun l => indent_text (sl_indent s) ++ l) lines) (sl_indent s).

(** 150-168 the context manager s(title, raising) around a body that transforms the log and
    may raise; [tb] is the formatted traceback. *)
Definition log_section (title : text) (raising : bool) (tb : exn -> text)
  (body : simplelog -> simplelog * result unit) (s : simplelog) : simplelog * result unit :=
  let s := match sl_lines s with [] => s | _ => log_call s [] end in
  let s := log_call (log_call s title) [] in
  let s := SLog (sl_lines s) (S (sl_indent s)) in
  let (s, r) := body s in
  let s := SLog (sl_lines s) (pred (sl_indent s)) in
  match r with
  | Ok _ => (log_call s [], Ok tt)
  | Err e =>
    if raising then (s, Err e)
    else (log_call (log_call s (tb e)) [], Ok tt)
  end.

End Bot.
