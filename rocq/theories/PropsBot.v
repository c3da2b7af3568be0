(** C82: the bot's report and the delivery of its reply.  Statements only; proofs are in
    BotProofs.v, the vocabulary is in BotSpec.v. *)
From Verif Require Import Base PyStr Base64 Env Prog Chain Gpg Mime States Account Cmdline Bot Fs Api MimeTree Commands BotCommand Spec Obs PeerSpec RecSpec OutSpec CliSpec BotSpec
  BotProofs Toy Demo PropsOut PropsCli.

(** ** C82 *)
(** The command does what C50 and C51 say about a reply with a certain text; if there is a
    reply, this text is the report, which is true, and the reply is printed or sent. *)
Theorem C82_report_partial : forall (E : Env) (Sh : Shell) (Po : Post) s smtp fb m, reachable s -> exists body,
  exists r, bot_ends s smtp fb m (after s (ABot fb body m)) r /\
  ((exists e, answer s (ABot fb body m) = Err e /\ r = Err e) \/
   (answer s (ABot fb body m) = Ok (OOptMsg None) /\ r = Ok (Posted [] None)) \/
   (exists rep me a own q ls, answer s (ABot fb body m) = Ok (OOptMsg (Some rep)) /\
      report s fb m me a own q ls /\ body = join [10%N] ls /\
      hget_all rep (L "From") = [me] /\ (forall o, r = Ok o <-> delivery smtp rep me o) /\
      (is_encrypted rep = Ok true <-> q = L "encrypt"))).
Proof. exact @c82_report. Qed.
Print Assumptions C82_report_partial.

(** The last line is the recommendation, whatever is in the mail. *)
Theorem C82_last_line : forall (E : Env) (Po : Post) s fb m me a own q ls, reachable s -> report s fb m me a own q ls ->
  exists before, ls = before ++ [L "P.P.S.: For this reply the encryption recommendation is " ++ q].
Proof. exact @c82_last_line. Qed.
Print Assumptions C82_last_line.

(** A mail handed to a server is from the bot, to the sender and everybody addressed but the bot. *)
Theorem C82_recipients : forall (E : Env) (Sh : Shell) (Po : Post) s smtp fb m s' lines host port sender rcpts t, reachable s ->
  bot_ends s smtp fb m s' (Ok (Posted lines (Some (host, port, sender, rcpts, t)))) ->
  bot_address m fb sender /\ exists from ps ts, hget m (L "From") = Some from /\
    rcpts = map snd (getaddresses (from :: cc_field ts)) /\ formatted ps ts /\
    (set_laws -> NoDup ps /\ forall rn x, In (rn, x) ps <-> In (rn, x) (addressed m) /\ x <> [] /\ x <> sender).
Proof. exact @c82_recipients. Qed.
Print Assumptions C82_recipients.

(** The examples: printing a mail shows its text only; one server. *)
Definition Sh1 : Shell := {|
  as_string := fun m => match m_body m with PStr t => Ok t | _ => Ok (L "encrypted") end;
  ctime := fun t => dec_N (Z.to_N t); isoformat := fun t => dec_N (Z.to_N t); popen := fun _ _ => Ok 0%Z |}.
Definition Po1 : Post := {|
  parts_shown := toy_display; traceback := fun _ => L "Traceback"; infos_text := fun l => dec_N (N.of_nat (length l));
  int_of := fun t => if text_eqb t (L "25") then Ok 25%Z else Err ValueError;
  smtp_send := fun host _ _ _ _ => if text_eqb host (L "mx") then Ok tt else Err TypeError |}.

(** Missing: a line end other than LF in a header begins a new line of the report, which can
    look like any line about the headers; here it tells another Delivered-To address. *)
Definition fake : msg := mail (L "dave@d.org") alice (L "1000") (L "<9>")
  [(L "Delivered-To", alice); (L "Subject", [11%N] ++ L "determined Delivered-To: x@x.org")].
Definition fake_text : text :=
  match snd (arun (E := E0) (@bot_command E0 Sh1 Po1 None None fake) state1) with Ok (Posted [t] None) => t | _ => [] end.
Theorem C82_fake_line_refuted : exists (E : Env) (Sh : Shell) (Po : Post) s m s' t me other, reached s /\ bot_address m None me /\
  bot_ends s None None m s' (Ok (Posted [t] None)) /\ other <> me /\
  In (L "  determined Delivered-To: " ++ me) (split_on 10 t) /\ In (L "  determined Delivered-To: " ++ other) (split_on 10 t).
Proof.
  exists E0, Sh1, Po1, state1, fake, (fst (arun (E := E0) (@bot_command E0 Sh1 Po1 None None fake) state1)), fake_text, alice, (L "x@x.org").
  split; [apply state1_reached|]. split; [split; [discriminate|]; left; split; [vm_compute; reflexivity|vm_compute; discriminate]|].
  split.
  { assert (H : snd (arun (E := E0) (@bot_command E0 Sh1 Po1 None None fake) state1) = Ok (Posted [fake_text] None)) by (vm_compute; reflexivity).
    unfold bot_ends. rewrite <- H. apply surjective_pairing. }
  split; [vm_compute; discriminate|]. split; vm_compute; tauto.
Qed.
Print Assumptions C82_fake_line_refuted.

#[local] Existing Instance E0.
#[local] Existing Instance Sh1.
#[local] Existing Instance Po1.
Definition bot_prints (smtp : option text) (m : msg) : result posted := snd (arun (bot_command smtp None m) state1).
Definition lines_printed (m : msg) : list text :=
  match bot_prints None m with Ok (Posted [t] None) => split_on 10 t | _ => [] end.
(** the report to somebody without a key, line by line *)
Example C82_example : reachable state1 /\
  lines_printed (mail (L "dave@d.org") alice (L "1000") (L "<9>") [(L "Delivered-To", alice); (L "Subject", L "a" ++ [10%N] ++ L " b")]) =
    [L "reading headers"; []; L "  determined Delivered-To: alice@a.org"; []; [];
     L "Got your mail, here is what i found in headers:"; [];
     L "  Message-ID:     <9>";
     L "  Delivered-To:   alice@a.org";
     L "  From:           dave@d.org";
     L "  To:             alice@a.org";
     L "  Subject:        a\n b";
     L "  Date:           1000";
     L "  DKIM-Signature  NOTFOUND";
     L "  Autocrypt       NOTFOUND"; []; [];
     L "And this is the mime structure i saw:"; [];
     L "  " ++ [c_last; c_leaf; c_arm] ++ L "text/plain [] 5 bytes (Subject: a"; L "   b)"; []; [];
     L "processed incoming mail for account a:"; []; L "  no valid Autocrypt header found"; []; [];
     L "have a nice day, alice@a.org"; [];
     L "P.S.: my current key AAAAAAAAAAAA0000 is in the Autocrypt header of this reply.";
     L "P.P.S.: For this reply the encryption recommendation is disable"].
Proof. split; [apply state1_reachable|]. vm_compute. reflexivity. Qed.
(** an encrypted reply sent by a server; servers that are not given properly *)
Example C82_sent : bot_prints (Some (L "mx,25")) (to_bot bob alice carol) =
    Ok (Posted [L "send reply through smtp: mx,25"] (Some (L "mx", 25%Z, alice, [bob; carol], L "encrypted"))) /\
  bot_prints (Some (L "mx")) (to_bot bob alice carol) = Err ValueError /\
  bot_prints (Some (L "mx,25,1")) (to_bot bob alice carol) = Err ValueError /\
  bot_prints (Some (L "mx,25")) (to_bot bob carol alice) = Ok (Posted [] None).
Proof. split; [vm_compute; reflexivity|]. split; [vm_compute; reflexivity|]. split; vm_compute; reflexivity. Qed.
