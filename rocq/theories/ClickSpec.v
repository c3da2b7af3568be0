(** Vocabulary of C84: what may be typed after [muacrypt], and what it means. *)
From Verif Require Import Base PyStr Env Prog Chain Gpg Mime States Recommendation Account Cmdline Bot Fs Api Spec PeerSpec RecSpec OutSpec AcctSpec MimeTree Commands CmdSpec BotCommand BotSpec Click.

(** a word that is no option: it does not start with a dash, or is nothing but a dash *)
Definition plain_word (w : text) : Prop := w = L "-" \/ forall r, w <> L "-" ++ r.
(** the name of an option with one letter *)
Definition letter (c : N) : text := L "-" ++ [c].
Definition long_name (n : text) : Prop := exists r, n = L "--" ++ r /\ r <> [].

(** These words name these options, with their values, and these arguments.  [flags] and
    [valued] are the names of the options without and with a value.  Options may be mixed with
    arguments or must come first. *)
Inductive spelled (mixed : bool) (flags valued : list text) : list text -> list (text * option text) -> list text -> Prop :=
| sp_end : spelled mixed flags valued [] [] []
| sp_rest ws : spelled mixed flags valued (L "--" :: ws) [] ws
| sp_argument w ws os args : mixed = true -> plain_word w -> spelled mixed flags valued ws os args -> spelled mixed flags valued (w :: ws) os (w :: args)
| sp_stop w ws : mixed = false -> plain_word w -> spelled mixed flags valued (w :: ws) [] (w :: ws)
(** --name, --name value, --name=value *)
| sp_flag n ws os args : long_name n -> In n flags -> spelled mixed flags valued ws os args -> spelled mixed flags valued (n :: ws) ((n, None) :: os) args
| sp_value n v ws os args : long_name n -> In n valued -> spelled mixed flags valued ws os args -> spelled mixed flags valued (n :: v :: ws) ((n, Some v) :: os) args
| sp_value_eq n v ws os args : long_name n -> In n valued -> spelled mixed flags valued ws os args ->
    spelled mixed flags valued ((n ++ L "=" ++ v) :: ws) ((n, Some v) :: os) args
(** -xyz, -xyzn value, -xyznvalue *)
| sp_letters cs ws os args : cs <> [] -> Forall (fun c => In (letter c) flags) cs -> spelled mixed flags valued ws os args ->
    spelled mixed flags valued ((L "-" ++ cs) :: ws) (map (fun c => (letter c, None)) cs ++ os) args
| sp_letters_value cs c v ws os args : Forall (fun c => In (letter c) flags) cs -> In (letter c) valued -> spelled mixed flags valued ws os args ->
    spelled mixed flags valued ((L "-" ++ cs ++ [c]) :: v :: ws) (map (fun c => (letter c, None)) cs ++ (letter c, Some v) :: os) args
| sp_letters_attached cs c v ws os args : v <> [] -> Forall (fun c => In (letter c) flags) cs -> In (letter c) valued -> spelled mixed flags valued ws os args ->
    spelled mixed flags valued ((L "-" ++ cs ++ c :: v) :: ws) (map (fun c => (letter c, None)) cs ++ (letter c, Some v) :: os) args.

(** the last value given under one of these names, if any *)
Definition gives (os : list (text * option text)) (names : list text) (v : option text) : Prop :=
  match v with
  | Some x => exists a n b, os = a ++ (n, Some x) :: b /\ In n names /\ forall m y, In (m, y) b -> ~ In m names
  | None => forall n y, In (n, y) os -> ~ In n names
  end.
Definition gives_or (os : list (text * option text)) (names : list text) (default v : text) : Prop :=
  gives os names (Some v) \/ (gives os names None /\ v = default).
Definition flagged (os : list (text * option text)) (names : list text) (b : bool) : Prop := b = true <-> exists n y, In (n, y) os /\ In n names.
Definition preference (v : text) : Prop := v = L "nopreference" \/ v = L "mutual".

(** The commands but for sendmail: name, options without and with value; what options and
    arguments mean. *)
Definition acct_names : list text := [L "-a"; L "--account"].
Inductive says : text -> list text -> list text -> list (text * option text) -> list text -> invocation -> Prop :=
| says_status os n v : gives os acct_names n -> flagged os [L "-v"; L "--verbose"] v ->
    says (L "status") [L "-v"; L "--verbose"] acct_names os [] (IStatus n v)
| says_add os n sys key bin regex : gives_or os acct_names (L "default") n -> flagged os [L "--use-system-keyring"] sys -> gives os [L "--use-key"] key ->
    gives_or os [L "--gpgbin"] (L "gpg") bin -> gives os [L "--email-regex"] regex ->
    says (L "add-account") [L "--use-system-keyring"] (L "--use-key" :: L "--gpgbin" :: L "--email-regex" :: acct_names) os [] (IAdd n sys key bin regex)
| says_mod os n key bin regex pref : gives_or os acct_names (L "default") n -> gives os [L "--use-key"] key ->
    gives_or os [L "--gpgbin"] (L "gpg") bin -> gives os [L "--email-regex"] regex -> gives os [L "--prefer-encrypt"] pref ->
    (forall p, pref = Some p -> preference p) ->
    says (L "mod-account") [] (L "--use-key" :: L "--gpgbin" :: L "--email-regex" :: L "--prefer-encrypt" :: acct_names) os [] (IMod n key bin regex pref)
| says_del os n : gives_or os acct_names (L "default") n -> says (L "del-account") [] acct_names os [] (IDel n)
| says_find os adr : says (L "find-account") [] [] os [adr] (IFind adr)
| says_header os val adr : flagged os [L "--val"] val -> says (L "make-header") [L "--val"] [] os [adr] (IMakeHeader val adr)
| says_recommend os n adrs : gives_or os acct_names (L "default") n -> says (L "recommend") [] acct_names os adrs (IRecommend n adrs)
| says_peerstate os n adr : gives_or os acct_names (L "default") n -> says (L "peerstate") [] acct_names os [adr] (IPeerstate n adr)
| says_incoming os n reparse nd : gives os acct_names n -> flagged os [L "--reparse"] reparse -> flagged os [L "--no-decrypt"] nd ->
    says (L "process-incoming") [L "--reparse"; L "--no-decrypt"] acct_names os [] (IIncoming n reparse nd)
| says_scandir os dir reparse : flagged os [L "--reparse"] reparse -> says (L "scandir-incoming") [L "--reparse"] [] os [dir] (IScandir dir reparse)
| says_outgoing os : says (L "process-outgoing") [] [] os [] IOutgoing
| says_import os n pref email : gives_or os acct_names (L "default") n -> gives_or os [L "--prefer-encrypt"] (L "mutual") pref -> preference pref ->
    gives os [L "--email"] email ->
    says (L "import-public-key") [] (L "--prefer-encrypt" :: L "--email" :: acct_names) os [] (IImport n pref email)
| says_export os n : gives_or os acct_names (L "default") n -> says (L "export-public-key") [] acct_names os [] (IExport n None)
| says_export_of os n kh : gives_or os acct_names (L "default") n -> says (L "export-public-key") [] acct_names os [kh] (IExport n (Some kh))
| says_export_secret os n : gives_or os acct_names (L "default") n -> says (L "export-secret-key") [] acct_names os [] (IExportSecret n)
| says_bot os smtp fallback : gives os [L "--smtp"] smtp -> gives os [L "--fallback-delivto"] fallback ->
    says (L "bot-reply") [] [L "--smtp"; L "--fallback-delivto"] os [] (IBotReply smtp fallback)
| says_destroy os yes : flagged os [L "--yes"] yes -> says (L "destroy-all") [L "--yes"] [] os [] (IDestroyAll yes).

(** The words after sendmail and the arguments that are passed on.  A word is passed on
    unless click finds the option for help in it. *)
Definition no_help (w : text) : Prop :=
  w <> L "--" /\ w <> L "--help" /\ (forall v, w <> L "--help=" ++ v) /\
  forall cs, w = L "-" ++ cs -> (exists r, cs = L "-" ++ r) \/ ~ In 104%N cs.
Definition passed (ws args : list text) : Prop :=
  exists a, Forall no_help a /\ ((ws = a /\ args = a) \/ exists b, ws = a ++ L "--" :: b /\ args = a ++ b).

(** This is what follows after the group's own options; the base directory they name. *)
Definition after_options (ws : list text) (dir : option text) (rest : list text) : Prop :=
  exists os, spelled false [] [L "--basedir"] ws os rest /\ gives os [L "--basedir"] dir.
Definition asks_for (name : text) (ws : list text) (i : invocation) : Prop :=
  (exists flags valued os args, says name flags valued os args i /\ spelled true flags valued ws os args) \/
  (name = L "sendmail" /\ exists args, i = ISendmail args /\ passed ws args).

(** values that can be given *)
Definition can_be_asked (i : invocation) : Prop :=
  match i with
  | IMod _ _ _ _ (Some p) => preference p
  | IImport _ p _ => preference p
  | _ => True
  end.

(** the command that is carried out, with its input; the other two are scandir-incoming and
    bot-reply *)
Inductive carried_out (inp : input) : invocation -> command -> Prop :=
| co_destroy yes : carried_out inp (IDestroyAll yes) (CmdDestroyAll yes)
| co_add n sys key bin regex : carried_out inp (IAdd n sys key bin regex) (CmdAdd n sys key bin regex)
| co_mod n key bin regex pref : carried_out inp (IMod n key bin regex pref) (CmdMod n key (Some bin) regex pref)
| co_del n : carried_out inp (IDel n) (CmdDel n)
| co_find a : carried_out inp (IFind a) (CmdFind a)
| co_header v a : carried_out inp (IMakeHeader v a) (CmdMakeHeader v a)
| co_recommend n l : carried_out inp (IRecommend n l) (CmdRecommend n l)
| co_peerstate n a : carried_out inp (IPeerstate n a) (CmdPeerstate n a)
| co_incoming n r nd : carried_out inp (IIncoming n r nd) (CmdIncoming n r nd (in_mail inp))
| co_outgoing : carried_out inp IOutgoing (CmdOutgoing (in_mail inp))
| co_sendmail args : carried_out inp (ISendmail args) (CmdSendmail args (in_mail inp))
| co_import n p e : carried_out inp (IImport n p e) (CmdImport n p e (in_text inp))
| co_export n k : carried_out inp (IExport n k) (CmdExport n k)
| co_secret n : carried_out inp (IExportSecret n) (CmdExportSecret n)
| co_status n v : carried_out inp (IStatus n v) (CmdStatus n v).

(** The process ends because of this exception.  There is a traceback unless it is one of
    those that are meant for the user. *)
Definition ends_with (x : exn) (e : ended) : Prop :=
  en_exit e = 1%Z /\ en_started e = None /\ en_mail e = None /\
  (en_trace e = false <-> In x [AccountNotFound; AccountExists; ClickException; KeyboardInterrupt]).
(** It ends without one. *)
Definition ends_well (z : Z) (e : ended) : Prop := en_exit e = z /\ en_trace e = false.

(** the commands there are *)
Definition command_names : list text :=
  [L "status"; L "add-account"; L "mod-account"; L "del-account"; L "find-account"; L "make-header"; L "recommend"; L "peerstate";
   L "process-incoming"; L "scandir-incoming"; L "process-outgoing"; L "sendmail"; L "import-public-key"; L "export-public-key";
   L "export-secret-key"; L "bot-reply"; L "destroy-all"].
Definition help_words : list text := [L "-h"; L "--help"].
(** a name that begins with a letter or a digit *)
Definition looks_like_name (n : text) : Prop :=
  exists c r, n = c :: r /\ ((48 <= c <= 57) \/ (65 <= c <= 90) \/ (97 <= c <= 122))%N.
(** one that begins with another character of ASCII, as [_status] *)
Definition begins_with_mark (n : text) : Prop := exists c r, n = c :: r /\ (c < 128)%N /\ ~ looks_like_name n.
(** where the state is kept: what is typed goes before the environment *)
Definition base_directory (typed environment : option text) (usual dir : text) : Prop :=
  typed = Some dir \/ (typed = None /\ (environment = Some dir \/ (environment = None /\ dir = usual))).
