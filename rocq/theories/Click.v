(** /repo/muacrypt/cmdline.py and cmdline_utils.py: from the words typed on the command line
    to the command with its parsed arguments, and the end of the process.

    The options and arguments are those declared by decorators in cmdline.py and bot.py.  How
    words are matched with them is click's doing (its modules parser and core, versions 6 and
    7; click is not in /repo).  Simplifications: words are texts; an option value given by
    environment variable is only known for --basedir; usage errors are not told apart; in the
    case of an unknown command, characters beyond ASCII count as letters. *)
From Verif Require Import Base PyStr Env Prog Chain Gpg Mime States Recommendation Account Cmdline Bot Fs Api MimeTree Commands BotCommand.

(** What a command line asks for: a command with its arguments, but without its input. *)
Inductive invocation :=
| IDestroyAll (yes : bool)
| IAdd (name : text) (use_system : bool) (use_key : option text) (gpgbin : text) (regex : option text)
| IMod (name : text) (use_key : option text) (gpgbin : text) (regex pref : option text)
| IDel (name : text)
| IFind (emailadr : text)
| IMakeHeader (val : bool) (emailadr : text)
| IRecommend (name : text) (emailadrs : list text)
| IPeerstate (name emailadr : text)
| IIncoming (name : option text) (reparse no_decrypt : bool)
| IScandir (directory : text) (reparse : bool)
| IOutgoing
| ISendmail (args : list text)
| IImport (name pref : text) (email : option text)
| IExport (name : text) (kh : option text)
| IExportSecret (name : text)
| IStatus (name : option text) (verbose : bool)
| IBotReply (smtp fallback : option text).

(** The options found among the words: parameter, and the value if it takes one *)
Definition settings := list (text * option text).
Definition is_set (os : settings) (p : text) : bool := existsb (fun o => text_eqb (fst o) p) os.
(** the last value given counts *)
Fixpoint value_of (os : settings) (p : text) : option text :=
  match os with
  | [] => None
  | (q, v) :: os' =>
    match value_of os' p with
    | Some x => Some x
    | None => if text_eqb q p then v else None
    end
  end.
Definition value_or (os : settings) (p default : text) : text := match value_of os p with Some v => v | None => default end.

(** One option: its names, the parameter it sets, whether it takes a value. *)
Record opt := Opt { o_names : list text; o_param : text; o_takes : bool }.
(** A command: name, options, whether unknown options are arguments, whether options may
    follow arguments; and what it makes of options and arguments (None: a usage error). *)
Record decl := Decl { d_name : text; d_opts : list opt; d_ignore : bool; d_mixed : bool; d_make : settings -> list text -> option invocation }.

(** ** The parser *)
(** names such as -a *)
Definition is_short (n : text) : bool := match n with [a; b] => N.eqb a 45 && negb (N.eqb b 45) | _ => false end.
Definition find_long (os : list opt) (n : text) : option opt :=
  find (fun o => existsb (fun m => negb (is_short m) && text_eqb m n) (o_names o)) os.
Definition find_short (os : list opt) (c : N) : option opt := find (fun o => existsb (fun m => is_short m && text_eqb m [45%N; c]) (o_names o)) os.

(** arg.split('=', 1) *)
Fixpoint cut_eq (w : text) : text * option text :=
  match w with
  | [] => ([], None)
  | c :: w' => if N.eqb c 61 then ([], Some w') else let '(n, v) := cut_eq w' in (c :: n, v)
  end.

(** The outcome for a word that starts like an option: settings, arguments, and the parameter
    that is set by the next word. *)
Record taken := Taken { t_set : settings; t_args : list text; t_wants : option text }.

(** OptionParser._match_short_opt: options, unknown letters, parameter set by the next word *)
Fixpoint short_opts (d : decl) (cs : text) : option (settings * text * option text) :=
  match cs with
  | [] => Some ([], [], None)
  | c :: cs' =>
    match find_short (d_opts d) c with
    | None =>
      if d_ignore d then
        match short_opts d cs' with Some (os, unknown, wants) => Some (os, c :: unknown, wants) | None => None end
      else None
    | Some o =>
      if o_takes o then
        match cs' with
        | [] => Some ([], [], Some (o_param o))
        | _ => Some ([(o_param o, Some cs')], [], None)
        end
      else
        match short_opts d cs' with Some (os, unknown, wants) => Some ((o_param o, None) :: os, unknown, wants) | None => None end
    end
  end.

(** OptionParser._process_opts with _match_long_opt *)
Definition word_opts (d : decl) (w : text) : option taken :=
  let '(n, v) := cut_eq w in
  match find_long (d_opts d) n with
  | Some o =>
    if o_takes o then
      match v with
      | Some x => Some (Taken [(o_param o, Some x)] [] None)
      | None => Some (Taken [] [] (Some (o_param o)))
      end
    else match v with Some _ => None | None => Some (Taken [(o_param o, None)] [] None) end
  | None =>
    if startswith (L "--") w then
      if d_ignore d then Some (Taken [] [w] None) else None
    else
      match short_opts d (tl w) with
      | Some (os, unknown, wants) => Some (Taken os (match unknown with [] => [] | _ => [45%N :: unknown] end) wants)
      | None => None
      end
  end.

(** a word that starts with a dash and is longer *)
Definition like_opt (w : text) : bool := match w with c :: _ :: _ => N.eqb c 45 | _ => false end.

(** OptionParser._process_args_for_options *)
Fixpoint parse_words (d : decl) (ws : list text) : option (settings * list text) :=
  match ws with
  | [] => Some ([], [])
  | w :: ws' =>
    if text_eqb w (L "--") then Some ([], ws')
    else if like_opt w then
      match word_opts d w with
      | None => None
      | Some (Taken os args None) =>
        match parse_words d ws' with Some (os', args') => Some (os ++ os', args ++ args') | None => None end
      | Some (Taken os args (Some p)) =>
        match ws' with
        | [] => None
        | v :: ws'' =>
          match parse_words d ws'' with Some (os', args') => Some (os ++ (p, Some v) :: os', args ++ args') | None => None end
        end
      end
    else if d_mixed d then
      match parse_words d ws' with Some (os', args') => Some (os', w :: args') | None => None end
    else Some ([], w :: ws')
  end.

(** ** The declarations *)
Definition opt_help : opt := Opt [L "-h"; L "--help"] (L "help") false.                               (* cmdline.py:27 help_option_names *)
Definition opt_account : opt := Opt [L "-a"; L "--account"] (L "account_name") true.                  (* cmdline.py:90-96 *)
Definition opt_use_key : opt := Opt [L "--use-key"] (L "use_key") true.                               (* cmdline.py:67-70 *)
Definition opt_system : opt := Opt [L "--use-system-keyring"] (L "use_system_keyring") false.         (* cmdline.py:72-75 *)
Definition opt_gpgbin : opt := Opt [L "--gpgbin"] (L "gpgbin") true.                                  (* cmdline.py:77-80 *)
Definition opt_regex : opt := Opt [L "--email-regex"] (L "email_regex") true.                         (* cmdline.py:82-84 *)
Definition opt_prefer : opt := Opt [L "--prefer-encrypt"] (L "prefer_encrypt") true.                  (* cmdline.py:86-89 and cmdline.py:439-442 *)
Definition opt_verbose : opt := Opt [L "-v"; L "--verbose"] (L "verbose") false.                      (* cmdline.py:98-99 *)
Definition opt_reparse : opt := Opt [L "--reparse"] (L "reparse") false.                              (* cmdline.py:101-104 *)

(** click.Choice(["nopreference", "mutual"]) *)
Definition choice_ok (v : option text) : bool :=
  match v with Some x => mem_text x [L "nopreference"; L "mutual"] | None => true end.
(** no argument; one; one that may be left out (click.argument) *)
Definition no_arg (i : invocation) (args : list text) : option invocation := match args with [] => Some i | _ => None end.
Definition one_arg (i : text -> invocation) (args : list text) : option invocation := match args with [x] => Some (i x) | _ => None end.
Definition maybe_arg (i : option text -> invocation) (args : list text) : option invocation :=
  match args with [] => Some (i None) | [x] => Some (i (Some x)) | _ => None end.

(** cmdline_utils.py:49-54: mycommand and the class of sendmail *)
Definition mycommand (name : text) (os : list opt) (make : settings -> list text -> option invocation) : decl :=
  Decl name (os ++ [opt_help]) false true make.
Definition name_of (os : settings) : text := value_or os (L "account_name") (L "default").

(** cmdline.py:486-496 *)
Definition d_status : decl :=
  mycommand (L "status") [opt_account; opt_verbose]
     (fun os => no_arg (IStatus (value_of os (L "account_name")) (is_set os (L "verbose")))).
(** cmdline.py:107-138 *)
Definition d_add_account : decl :=
  mycommand (L "add-account") [opt_account; opt_use_key; opt_system; opt_gpgbin; opt_regex]
     (fun os => no_arg (IAdd (name_of os) (is_set os (L "use_system_keyring")) (value_of os (L "use_key"))
                             (value_or os (L "gpgbin") (L "gpg")) (value_of os (L "email_regex")))).
(** cmdline.py:141-160 *)
Definition d_mod_account : decl :=
  mycommand (L "mod-account") [opt_account; opt_use_key; opt_gpgbin; opt_regex; opt_prefer]
     (fun os args => if choice_ok (value_of os (L "prefer_encrypt")) then
        no_arg (IMod (name_of os) (value_of os (L "use_key")) (value_or os (L "gpgbin") (L "gpg"))
                     (value_of os (L "email_regex")) (value_of os (L "prefer_encrypt"))) args
      else None).
(** cmdline.py:163-174 *)
Definition d_del_account : decl :=
  mycommand (L "del-account") [opt_account] (fun os => no_arg (IDel (name_of os))).
(** cmdline.py:177-187 *)
Definition d_find_account : decl :=
  mycommand (L "find-account") [] (fun _ => one_arg IFind).
(** cmdline.py:252-281 *)
Definition d_process_incoming : decl :=
  mycommand (L "process-incoming") [opt_account; Opt [L "--no-decrypt"] (L "no_decrypt") false; opt_reparse]
     (fun os => no_arg (IIncoming (value_of os (L "account_name")) (is_set os (L "reparse")) (is_set os (L "no_decrypt")))).
(** cmdline.py:284-291 *)
Definition d_scandir_incoming : decl :=
  mycommand (L "scandir-incoming") [opt_reparse]
     (fun os => one_arg (fun d => IScandir d (is_set os (L "reparse")))).
(** cmdline.py:437-462 *)
Definition d_import_public_key : decl :=
  mycommand (L "import-public-key") [opt_account; opt_prefer; Opt [L "--email"] (L "email") true]
     (fun os args => if choice_ok (value_of os (L "prefer_encrypt")) then
        no_arg (IImport (name_of os) (value_or os (L "prefer_encrypt") (L "mutual")) (value_of os (L "email"))) args
      else None).
(** cmdline.py:222-249 *)
Definition d_peerstate : decl :=
  mycommand (L "peerstate") [opt_account] (fun os => one_arg (IPeerstate (name_of os))).
(** cmdline.py:207-219 *)
Definition d_recommend : decl :=
  mycommand (L "recommend") [opt_account] (fun os args => Some (IRecommend (name_of os) args)).
(** cmdline.py:358-370 *)
Definition d_process_outgoing : decl :=
  mycommand (L "process-outgoing") [] (fun _ => no_arg IOutgoing).
(** cmdline.py:404-434 *)
Definition d_sendmail : decl :=
  Decl (L "sendmail") [opt_help] true true (fun _ args => Some (ISendmail args)).
(** cmdline.py:190-204 *)
Definition d_make_header : decl :=
  mycommand (L "make-header") [Opt [L "--val"] (L "val") false]
     (fun os => one_arg (IMakeHeader (is_set os (L "val")))).
(** cmdline.py:465-473 *)
Definition d_export_public_key : decl :=
  mycommand (L "export-public-key") [opt_account] (fun os => maybe_arg (IExport (name_of os))).
(** cmdline.py:476-483 *)
Definition d_export_secret_key : decl :=
  mycommand (L "export-secret-key") [opt_account] (fun os => no_arg (IExportSecret (name_of os))).
(** bot.py:27-34 *)
Definition d_bot_reply : decl :=
  mycommand (L "bot-reply") [Opt [L "--smtp"] (L "smtp") true; Opt [L "--fallback-delivto"] (L "fallback_delivto") true]
     (fun os => no_arg (IBotReply (value_of os (L "smtp")) (value_of os (L "fallback_delivto")))).
(** cmdline.py:41-64 *)
Definition d_destroy_all : decl :=
  mycommand (L "destroy-all") [Opt [L "--yes"] (L "yes") false] (fun os => no_arg (IDestroyAll (is_set os (L "yes")))).

(** cmdline.py:563-579, in this order *)
Definition commands : list decl :=
  [d_status; d_add_account; d_mod_account; d_del_account; d_find_account; d_process_incoming; d_scandir_incoming; d_import_public_key; d_peerstate; d_recommend; d_process_outgoing; d_sendmail; d_make_header; d_export_public_key; d_export_secret_key; d_bot_reply; d_destroy_all].

(** cmdline.py:27-38 the group *)
Definition main : decl :=
  Decl (L "muacrypt") [Opt [L "--basedir"] (L "basedir") true; Opt [L "--version"] (L "version") false; opt_help] false false (fun _ _ => None).

(** ** The command line *)
Inductive typed_line :=
| BadUsage            (* message on stderr, exit code 2 *)
| ShowHelp            (* exit code 0 *)
| ShowVersion         (* exit code 0 *)
| Runs (basedir : option text) (i : invocation).

(** --help and --version are looked at first, in the order given *)
Fixpoint eager (os : settings) : option typed_line :=
  match os with
  | [] => None
  | (p, _) :: os' => if text_eqb p (L "help") then Some ShowHelp else if text_eqb p (L "version") then Some ShowVersion else eager os'
  end.
(** MultiCommand.parse_args: what the group's options say, and the words after them *)
Definition main_words (ws : list text) : typed_line + (settings * list text) :=
  match ws with
  | [] => inl ShowHelp
  | _ =>
    match parse_words main ws with
    | None => inl BadUsage
    | Some (os, rest) => match eager os with Some l => inl l | None => inr (os, rest) end
    end
  end.
Definition find_command (n : text) : option decl := find (fun d => text_eqb (d_name d) n) commands.
(** MultiCommand.resolve_command for a name that is no command: if it looks like an option, what
    is left in the context is parsed once more, for a better message; but nothing is left there,
    since MultiCommand.invoke has taken the words out, and for no words help is shown *)
Definition no_command (n : text) : typed_line :=
  match n with
  | c :: _ => if ascii_alnum_cp c || negb (is_ascii_cp c) then BadUsage
              else match main_words [] with inl l => l | inr _ => BadUsage end
  | [] => BadUsage
  end.
(** MultiCommand.invoke and Command.parse_args *)
Definition read_line (ws : list text) : typed_line :=
  match main_words ws with
  | inl l => l
  | inr (_, []) => BadUsage
  | inr (os, n :: args) =>
    match find_command n with
    | None => no_command n
    | Some d =>
      match parse_words d args with
      | None => BadUsage
      | Some (os', args') =>
        if is_set os' (L "help") then ShowHelp
        else match d_make d os' args' with None => BadUsage | Some i => Runs (value_of os (L "basedir")) i end
      end
    end
  end.

(** ** The process *)
(** What a command may read: standard input as text and as a mail, and a directory with mails
    (modification time and mail). *)
Record input := Input { in_text : text; in_mail : msg; in_dir : text -> result (list (Z * msg)) }.

(** How the process ends: exit code, the program started, the mail sent by SMTP; whether a
    traceback was printed. *)
Record ended := Ended { en_exit : Z; en_started : option (list text * bytes); en_mail : option (text * Z * text * list text * text); en_trace : bool }.

Section Process.
Context {E : Env} {Sh : Shell} {Po : Post}.

Definition command_of (i : invocation) (inp : input) : option command :=
  match i with
  | IDestroyAll yes => Some (CmdDestroyAll yes)
  | IAdd n sys key bin regex => Some (CmdAdd n sys key bin regex)
  | IMod n key bin regex pref => Some (CmdMod n key (Some bin) regex pref)
  | IDel n => Some (CmdDel n)
  | IFind a => Some (CmdFind a)
  | IMakeHeader v a => Some (CmdMakeHeader v a)
  | IRecommend n l => Some (CmdRecommend n l)
  | IPeerstate n a => Some (CmdPeerstate n a)
  | IIncoming n r d => Some (CmdIncoming n r d (in_mail inp))
  | IOutgoing => Some (CmdOutgoing (in_mail inp))
  | ISendmail args => Some (CmdSendmail args (in_mail inp))
  | IImport n p e => Some (CmdImport n p e (in_text inp))
  | IExport n k => Some (CmdExport n k)
  | IExportSecret n => Some (CmdExportSecret n)
  | IStatus n v => Some (CmdStatus n v)
  | IScandir _ _ | IBotReply _ _ => None
  end.

(** cmdline_utils.py:36-46 MyCommand.invoke, and click's main: an AccountException or a
    ClickException is told in one line, so is a KeyboardInterrupt; other exceptions end the
    program with a traceback. *)
Definition told_shortly (e : exn) : bool :=
  match e with AccountNotFound | AccountExists | ClickException | KeyboardInterrupt => true | _ => false end.
Definition failed (e : exn) : ended := Ended 1 None None (negb (told_shortly e)).

Definition invoke (i : invocation) (inp : input) (s : ast) : ast * ended :=
  match command_of i inp with
  | Some c =>
    match arun (command_prog c) s with
    | (s', Ok p) => (s', Ended (pr_exit p) (pr_started p) None false)
    | (s', Err e) => (s', failed e)
    end
  | None =>
    match i with
    | IScandir dir reparse =>
      match arun (fs <- lift (in_dir inp dir) ;; cli_scandir reparse fs) s with
      | (s', Ok _) => (s', Ended 0 None None false)
      | (s', Err e) => (s', failed e)
      end
    | IBotReply smtp fallback =>
      match arun (bot_command smtp fallback (in_mail inp)) s with
      | (s', Ok p) => (s', Ended 0 None (po_mail p) false)
      | (s', Err e) => (s', failed e)
      end
    | _ => (s, failed OtherError)
    end
  end.

(** the base directory is the one of the model ([Env]); where it comes from is in [read_line] *)
Definition muacrypt (ws : list text) (inp : input) (s : ast) : ast * ended :=
  match read_line ws with
  | BadUsage => (s, Ended 2 None None false)
  | ShowHelp | ShowVersion => (s, Ended 0 None None false)
  | Runs _ i => invoke i inp s
  end.
End Process.

(** cmdline.py:28-36: the option, else the environment variable, else the usual directory *)
Definition chosen_dir (option_ environment : option text) (usual : text) : text :=
  match option_ with Some d => d | None => match environment with Some d => d | None => usual end end.
