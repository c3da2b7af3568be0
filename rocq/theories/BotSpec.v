(** Vocabulary of the properties about the bot's report and the delivery of its reply (C82). *)
From Verif Require Import Base PyStr Env Prog Chain Gpg Mime States Recommendation Account Cmdline Bot Fs Api MimeTree Commands BotCommand Spec PeerSpec RecSpec OutSpec CliSpec.
From Verif Require GpgMoreSpec.

(** the lines of a text, at least one, indented by so many levels of two blanks *)
Definition paragraph (n : nat) (t : text) (ls : list text) : Prop :=
  exists raw, GpgMoreSpec.broken t raw /\
    ls = map (fun l => repeat 32%N (2 * n) ++ l) (match raw with [] => [[]] | _ => raw end).
(** a section: a line before and after, the title, the content *)
Definition titled (title : text) (content ls : list text) : Prop :=
  exists t, paragraph 0 title t /\ ls = [] :: t ++ [[]] ++ content ++ [[]].

(** a text in a column of 15 characters *)
Definition column (t c : text) : Prop := exists blanks, c = t ++ blanks /\ Forall (eq 32%N) blanks /\ (length t <= 15 -> length c = 15)%nat /\ (15 < length t -> c = t)%nat.
(** newlines written as a backslash and an n *)
Inductive escaped : text -> text -> Prop :=
| E_none : escaped [] []
| E_newline v w : escaped v w -> escaped (10%N :: v) (92%N :: 110%N :: w)
| E_other c v w : c <> 10%N -> escaped v w -> escaped (c :: v) (c :: w).
(** at most 60 characters of a text, or 40 and how many are left out *)
Definition shortened (v w : text) : Prop :=
  (length v <= 60 -> w = v)%nat /\
  (60 < length v -> exists kept dropped n, v = kept ++ dropped /\ length kept = 40 /\ written (N.of_nat (length dropped)) n /\
    w = kept ++ L "[truncated " ++ n ++ L " chars]")%nat.

Section BotSpec.
Context {E : Env} {Sh : Shell} {Po : Post}.

(** how a header of the mail is shown *)
Definition header_shown (m : msg) (name t : text) : Prop :=
  match hget m name with
  | None => exists c, column name c /\ t = c ++ L " NOTFOUND"
  | Some v => exists c w e, column (name ++ L ":") c /\ escaped v e /\ shortened e w /\ t = c ++ L " " ++ w
  end.
Definition names_shown : list text :=
  [L "Message-ID"; L "Delivered-To"; L "From"; L "To"; L "Subject"; L "Date"; L "DKIM-Signature"; L "Autocrypt"].
(** the structure of the mail, or why it could not be shown *)
Definition structure_shown (m : msg) (ls : list text) : Prop :=
  exists title c, paragraph 0 (L "And this is the mime structure i saw:") title /\
    match render_mime_structure parts_shown m with
    | Ok t => paragraph 1 t c
    | Err e => paragraph 0 (traceback e) c
    end /\ ls = [] :: title ++ [[]] ++ c ++ [[]].
(** what processing the mail gave: the complaint about its Autocrypt header, or what is now
    recorded about the sender *)
Definition finding (s : ast) (a : text) (m : msg) (i : incoming) (t : text) : Prop :=
  match p_error (in_pah i) with
  | Some (c :: e) => t = c :: e
  | _ => exists v, peer_of s a (from_addr m) = Some v /\
           t = L "found peeraddr=" ++ pv_addr v ++ L " keyhandle=" ++ pv_keyhandle v ++ L " prefer_encrypt=" ++ pv_pref v
  end.

(** The report about mail [m] that reached the bot in state [s]: its address and account, its
    key and the recommendation for the reply, and the lines. *)
Definition report (s : ast) (fallback : option text) (m : msg) (me a own q : text) (ls : list text) : Prop :=
  let s1 := after s (AIncoming a m false false) in
  exists i from c t_me t_headers heads structure t_found found processed decrypted nice ps pps,
    bot_address m fallback me /\ answer s (AFind me false) = Ok (OOptText (Some a)) /\
    answer s (AIncoming a m false false) = Ok (OIncoming (Some i)) /\
    own_of s1 a = Some (c, own) /\
    hget m (L "From") = Some from /\ recommended s1 a [from] (replying_encrypted m) q /\
    paragraph 1 (L "determined Delivered-To: " ++ me) t_me /\
    Forall2 (fun n b => exists t, header_shown m n t /\ paragraph 1 t b) names_shown t_headers /\
    titled (L "Got your mail, here is what i found in headers:") (concat t_headers) heads /\
    structure_shown m structure /\
    finding s1 a m i t_found /\ paragraph 1 t_found found /\
    titled (L "processed incoming mail for account " ++ a ++ L ":") found processed /\
    ((replying_encrypted m = false /\ decrypted = []) \/
     (replying_encrypted m = true /\ exists dm infos keys, answer s1 (ADecrypt a m) = Ok (ODecrypted dm infos) /\
        paragraph 0 (L "It was encrypted to the following keys:" ++ infos_text infos) keys /\
        decrypted = L "Your message was encrypted." :: keys)) /\
    paragraph 0 (L "have a nice day, " ++ me) nice /\
    paragraph 0 (L "P.S.: my current key " ++ own ++ L " is in the Autocrypt header of this reply.") ps /\
    paragraph 0 (L "P.P.S.: For this reply the encryption recommendation is " ++ q) pps /\
    ls = [L "reading headers"; []] ++ t_me ++ [[]] ++ heads ++ structure ++ processed ++ [[]] ++ decrypted
         ++ nice ++ [[]] ++ ps ++ pps.

(** What is done with a reply: printed, or sent by the server given on the command line, to
    everybody it is addressed to. *)
Definition delivery (smtp : option text) (rep : msg) (me : text) (o : posted) : Prop :=
  exists t, as_string rep = Ok t /\
    (((smtp = None \/ smtp = Some []) /\ o = Posted [t] None) \/
     exists x host port p, smtp = Some x /\ x = host ++ L "," ++ port /\ ~ In 44%N host /\ ~ In 44%N port /\ int_of port = Ok p /\
       smtp_send host p me (map snd (addressed rep)) t = Ok tt /\
       o = Posted [L "send reply through smtp: " ++ x] (Some (host, p, me, map snd (addressed rep), t))).
(** running the command *)
Definition bot_ends (s : ast) (smtp fallback : option text) (m : msg) (s' : ast) (r : result posted) : Prop :=
  arun (bot_command smtp fallback m) s = (s', r).
End BotSpec.
