(** C84: from the words typed to the command, and how the process ends.  Statements only;
    proofs are in ClickProofs.v, the vocabulary is in ClickSpec.v. *)
From Verif Require Import Base PyStr Base64 Env Prog Chain Gpg Mime States Account Cmdline Bot Fs Api MimeTree Commands BotCommand Spec Obs PeerSpec RecSpec OutSpec CliSpec CmdSpec BotSpec
  Click ClickSpec ClickProofs Toy Demo PropsOut PropsCmd PropsBot.

(** ** C84 *)
(** These words, and no others, run this command with these arguments. *)
Theorem C84_line : forall ws dir i, read_line ws = Runs dir i <->
  exists name rest, after_options ws dir (name :: rest) /\ asks_for name rest i.
Proof. exact @c84_line. Qed.
Print Assumptions C84_line.
(** Every command can be run with any arguments. *)
Theorem C84_can : forall i, can_be_asked i -> exists ws, read_line ws = Runs None i.
Proof. exact @c84_can. Qed.
Print Assumptions C84_can.
(** All state is destroyed only if both words are typed. *)
Theorem C84_destroy : forall ws dir, read_line ws = Runs dir (IDestroyAll true) -> In (L "destroy-all") ws /\ In (L "--yes") ws.
Proof. exact @c84_destroy. Qed.
Print Assumptions C84_destroy.

(** Other words do nothing. *)
Theorem C84_nothing : forall (E : Env) (Sh : Shell) (Po : Post) ws inp s, (forall dir i, read_line ws <> Runs dir i) ->
  exists z, muacrypt ws inp s = (s, Ended z None None false) /\ (z = 0 \/ z = 2)%Z.
Proof. exact @c84_nothing. Qed.
Print Assumptions C84_nothing.
(** No words at all, or a word for help or --version: exit code 0.  A command that is none: 2. *)
Theorem C84_help : forall (E : Env) (Sh : Shell) (Po : Post) inp s h, In h help_words -> let ok := (s, Ended 0 None None false) in
  muacrypt [] inp s = ok /\ muacrypt [h] inp s = ok /\ muacrypt [L "--version"] inp s = ok /\
  forall name, In name command_names -> muacrypt [name; h] inp s = ok.
Proof. exact @c84_help. Qed.
Print Assumptions C84_help.
Theorem C84_unknown_partial : forall (E : Env) (Sh : Shell) (Po : Post) inp s ws dir name rest, after_options ws dir (name :: rest) ->
  ~ In name command_names -> looks_like_name name -> muacrypt ws inp s = (s, Ended 2 None None false).
Proof. exact @c84_unknown. Qed.
Print Assumptions C84_unknown_partial.
(** Missing: one that begins with a mark.  Whatever comes after it, help is shown and the exit code is 0. *)
Theorem C84_unknown_mark : forall (E : Env) (Sh : Shell) (Po : Post) inp s ws dir name rest, after_options ws dir (name :: rest) -> begins_with_mark name ->
  muacrypt ws inp s = (s, Ended 0 None None false).
Proof. exact @c84_mark. Qed.
Print Assumptions C84_unknown_mark.
(** The directory is the one typed, else that of the environment, else the usual one. *)
Theorem C84_directory : forall typed environment usual dir, chosen_dir typed environment usual = dir <-> base_directory typed environment usual dir.
Proof. exact @c84_directory. Qed.
Print Assumptions C84_directory.
(** The command is carried out as C61 to C63 say, and the exit code tells whether it failed. *)
Theorem C84_command : forall (E : Env) (Sh : Shell) (Po : Post) ws dir i inp c s, read_line ws = Runs dir i -> carried_out inp i c ->
  exists e, muacrypt ws inp s = (left_by s c, e) /\
  match outcome_of s c with
  | Ok p => ends_well (pr_exit p) e /\ en_started e = pr_started p /\ en_mail e = None
  | Err x => ends_with x e
  end.
Proof. exact @c84_command. Qed.
Print Assumptions C84_command.
Theorem C84_scandir : forall (E : Env) (Sh : Shell) (Po : Post) ws dir d reparse inp s, read_line ws = Runs dir (IScandir d reparse) ->
  match in_dir inp d with
  | Ok files => exists e, muacrypt ws inp s = (after s (ACliScandir reparse files), e) /\ en_started e = None /\ en_mail e = None /\
      match answer s (ACliScandir reparse files) with Ok _ => ends_well 0 e | Err x => ends_with x e end
  | Err x => exists e, muacrypt ws inp s = (s, e) /\ ends_with x e
  end.
Proof. exact @c84_scandir. Qed.
Print Assumptions C84_scandir.
Theorem C84_bot : forall (E : Env) (Sh : Shell) (Po : Post) ws dir smtp fb inp s, read_line ws = Runs dir (IBotReply smtp fb) ->
  exists s' r e, bot_ends s smtp fb (in_mail inp) s' r /\ muacrypt ws inp s = (s', e) /\
  match r with Ok p => ends_well 0 e /\ en_started e = None /\ en_mail e = po_mail p | Err x => ends_with x e end.
Proof. exact @c84_bot. Qed.
Print Assumptions C84_bot.

(** The program sendmail gets the words after the command.  Missing: words in which click
    sees its own options (see the theorems below), which [passed] excludes, and the first word
    that is just two dashes. *)
Theorem C84_sendmail_partial : forall (E : Env) (Sh : Shell) (Po : Post) ws inp s s' e argv x, muacrypt ws inp s = (s', e) -> en_started e = Some (argv, x) ->
  exists dir rest args path, after_options ws dir (L "sendmail" :: rest) /\ passed rest args /\ sendmail_program path /\ argv = path :: args.
Proof. exact @c84_started. Qed.
Print Assumptions C84_sendmail_partial.

(** A sender address with an h, given in the usual way (-fhans@a.org): help is printed and the
    mail is dropped; the exit code says that all went well. *)
Definition letter_mail : input := Input [] (to_both yes) (fun _ => Ok []).
Theorem C84_sendmail_refuted : exists (E : Env) (Sh : Shell) (Po : Post) s inp from to, reached s /\
  (exists m, answer s (ACliOutgoing (in_mail inp)) = Ok (OMsg m)) /\
  muacrypt [L "sendmail"; L "-f" ++ from; to] inp s = (s, Ended 0 None None false).
Proof.
  exists E0, Sh0, Po1, state1, letter_mail, (L "hans@a.org"), bob. split; [apply state1_reached|].
  split; [|assert (K : forall ws inp s, read_line ws = ShowHelp -> @muacrypt E0 Sh0 Po1 ws inp s = (s, Ended 0 None None false))
             by (intros ws inp s H; unfold muacrypt; rewrite H; reflexivity);
           apply K; vm_compute; reflexivity].
  assert (H : match answer (E := E0) state1 (ACliOutgoing (to_both yes)) with Ok (OMsg _) => true | _ => false end = true) by (vm_compute; reflexivity).
  change (in_mail letter_mail) with (to_both yes). destruct (answer (E := E0) state1 (ACliOutgoing (to_both yes))) as [[]|]; try discriminate H. eexists. reflexivity.
Qed.
Print Assumptions C84_sendmail_refuted.
(** The two dashes that protect against addresses which look like options do not reach
    sendmail. *)
Theorem C84_separator_refuted : exists (E : Env) (Sh : Shell) (Po : Post) s inp s' e path x adr, reached s /\
  muacrypt [L "sendmail"; L "-oi"; L "--"; adr] inp s = (s', e) /\ en_started e = Some ([path; L "-oi"; adr], x) /\ startswith (L "-") adr = true.
Proof.
  set (r := @muacrypt E0 Sh0 Po1 [L "sendmail"; L "-oi"; L "--"; L "-X/tmp/log@b.org"] letter_mail state1).
  exists E0, Sh0, Po1, state1, letter_mail, (fst r), (snd r), (L "/usr/sbin/sendmail"),
    (match en_started (snd r) with Some (_, x) => x | None => [] end), (L "-X/tmp/log@b.org").
  split; [apply state1_reached|]. split; [apply surjective_pairing|]. split; vm_compute; reflexivity.
Qed.
Print Assumptions C84_separator_refuted.
Theorem C84_unknown_refuted : exists (E : Env) (Sh : Shell) (Po : Post) s inp ws name rest, reached s /\ after_options ws None (name :: rest) /\
  name <> [] /\ ~ In name command_names /\ snd (muacrypt ws inp s) = Ended 0 None None false.
Proof.
  exists E0, Sh0, Po1, state1, letter_mail, [L "_status"; L "--nonsense"], (L "_status"), [L "--nonsense"]. split; [apply state1_reached|]. split.
  - exists []. split; [|intros m y []]. apply sp_stop; [reflexivity|]. right. intros r H. discriminate H.
  - split; [discriminate|]. split; [intros H; repeat (destruct H as [H|H]; [discriminate H|]); exact H|]. vm_compute. reflexivity.
Qed.
Print Assumptions C84_unknown_refuted.

#[local] Existing Instance E0.
#[local] Existing Instance Sh0.
#[local] Existing Instance Po1.
Definition exits (ws : list text) : Z * bool := let e := snd (muacrypt ws letter_mail state1) in (en_exit e, en_trace e).
Example C84_example :
  read_line [L "--basedir=/x"; L "status"; L "-va"; L "home"] = Runs (Some (L "/x")) (IStatus (Some (L "home")) true) /\
  read_line [L "recommend"; L "bob@b.org"; L "-ahome"; L "--"; L "-x"] = Runs None (IRecommend (L "home") [L "bob@b.org"; L "-x"]) /\
  read_line [L "mod-account"; L "--prefer-encrypt"; L "never"] = BadUsage /\
  read_line [L "destroy-all"; L "--yes"; L "-h"] = ShowHelp /\ read_line [L "--version"] = ShowVersion /\
  read_line [L "sendmail"; L "-oi"; L "-t"; L "bob@b.org"] = Runs None (ISendmail [L "-oi"; L "-t"; L "bob@b.org"]) /\
  read_line [L "peerstate"] = BadUsage /\ read_line [L "destroy"] = BadUsage.
Proof. repeat (split; [vm_compute; reflexivity|]). vm_compute. reflexivity. Qed.
Example C84_example_process : reachable state1 /\
  exits [L "find-account"; alice] = (0%Z, false) /\ exits [L "find-account"; L "nobody@x.org"] = (1%Z, false) /\
  exits [L "sendmail"; L "-t"; L "bad"] = (75%Z, false) /\ exits [L "sendmail"] = (1%Z, true) /\ exits [L "fnd-account"] = (2%Z, false) /\
  exits [L "scandir-incoming"; L "/mails"] = (0%Z, false) /\ exits [L "destroy-all"] = (1%Z, false).
Proof. split; [apply state1_reachable|]. repeat (split; [vm_compute; reflexivity|]). vm_compute. reflexivity. Qed.
Example C84_example_mark : after_options [L "_status"; L "--nonsense"] None [L "_status"; L "--nonsense"] /\ begins_with_mark (L "_status") /\
  exits [L "_status"; L "--nonsense"] = (0%Z, false) /\ exits [L "status"; L "--nonsense"] = (2%Z, false).
Proof.
  split; [|split; [|split; vm_compute; reflexivity]].
  - exists []. split; [|intros m y []]. apply sp_stop; [reflexivity|]. right. intros r H. discriminate H.
  - do 2 eexists. split; [reflexivity|]. split; [vm_compute; reflexivity|]. intros [c [r [[= <- _] H]]]. lia.
Qed.
Example C84_example_unknown : after_options [L "--basedir"; L "/x"; L "fnd-account"; L "x"] (Some (L "/x")) [L "fnd-account"; L "x"] /\
  ~ In (L "fnd-account") command_names /\ looks_like_name (L "fnd-account") /\ In (L "-h") help_words /\ In (L "sendmail") command_names /\
  chosen_dir None (Some (L "/env")) (L "/home/a/.config/muacrypt") = L "/env".
Proof.
  split; [|split; [|split; [|split; [|split]]]].
  - exists [(L "--basedir", Some (L "/x"))]. split.
    + apply sp_value; [exists (L "basedir"); split; [reflexivity|discriminate]|left; reflexivity|]. apply sp_stop; [reflexivity|]. right. intros r H. discriminate H.
    + exists [], (L "--basedir"), []. split; [reflexivity|]. split; [left; reflexivity|]. intros m y [].
  - intros H. repeat (destruct H as [H|H]; [discriminate H|]). exact H.
  - do 2 eexists. split; [reflexivity|]. right. right. vm_compute. split; discriminate.
  - left. reflexivity.
  - vm_compute. tauto.
  - vm_compute. reflexivity.
Qed.
