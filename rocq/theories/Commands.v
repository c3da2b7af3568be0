(** /repo/muacrypt/cmdline.py: the commands as processes, with the text they print, the exit
    code and the sendmail process they start.  A command starts with its parsed arguments and
    its standard input.  Text printed before an exception is not modelled: a command that
    raises has the exception as result (for an AccountException or a ClickException the
    message is printed and the exit code is 1, cmdline_utils.py:36-46). *)
From Verif Require Import Base PyStr Env Prog Chain Gpg Mime States Recommendation Account Cmdline.

(** What the commands use in addition to [Env]. *)
Class Shell := {
  (** msg.as_string() *)
  as_string : msg -> result text;
  (** time.ctime and datetime.datetime.fromtimestamp(t).isoformat() *)
  ctime : Z -> text;
  isoformat : Z -> text;
  (** exit status of a process with these arguments and this input; Raise when it cannot be
      started *)
  popen : list text -> bytes -> result Z
}.

(** Lines printed (click.echo, one line or chunk each), exit code, and the process that was
    started, if any. *)
Record printed := Printed { pr_lines : list text; pr_exit : Z; pr_started : option (list text * bytes) }.

Inductive command :=
| CmdDestroyAll (yes : bool)
| CmdAdd (name : text) (use_system : bool) (use_key : option text) (gpgbin : text) (regex : option text)
| CmdMod (name : text) (use_key gpgbin regex pref : option text)
| CmdDel (name : text)
| CmdFind (emailadr : text)
| CmdMakeHeader (val : bool) (emailadr : text)
| CmdRecommend (name : text) (emailadrs : list text)
| CmdPeerstate (name emailadr : text)
| CmdIncoming (name : option text) (reparse no_decrypt : bool) (stdin : msg)
| CmdOutgoing (stdin : msg)
| CmdSendmail (args : list text) (stdin : msg)
| CmdImport (name pref : text) (email : option text) (stdin : text)
| CmdExport (name : text) (kh : option text)
| CmdExportSecret (name : text)
| CmdStatus (name : option text) (verbose : bool).

Section Commands.
Context {E : Env} {Sh : Shell}.

(** repr() of a string without quotes, backslashes and unprintable characters, such as an
    account name or a key handle *)
Definition repr (t : text) : text := L "'" ++ t ++ L "'".
(** "{:16s}".format(t) *)
Definition pad (n : nat) (t : text) : text := t ++ repeat 32%N (n - length t).

(** cmdline.py:515-516 kecho *)
Definition kecho (name value : text) : text := L "  " ++ pad 16 (name ++ L ":") ++ L " " ++ value.

(** cmdline.py:511-560 _status_account.  The uids are printed in the order of the key listing
    (a Python set in the code: order and repetition have no meaning). *)
Definition peer_line (p : status_peer) : text :=
  L "  " ++ sp_addr p ++ L ": last seen key " ++ sp_kh p ++ L ", status: "
  ++ (if sp_last_was_ac p then L "last-was-autocrypt" else L "past-autocrypt")
  ++ L ", last_seen: " ++ ctime (sp_seen p).
Definition account_lines (home : option text) (st : status_account) (peers : option (list text)) : list text :=
  let c := sa_cfg st in
  [L "account: " ++ repr (cf_name c);
   kecho (L "email_regex") (cf_regex c);
   kecho (L "gpgmode") (if text_eqb (cf_mode c) (L "own")
                        then cf_mode c ++ L " [home: " ++ (match home with Some h => h | None => L "None" end) ++ L "]"
                        else cf_mode c);
   kecho (L "gpgbin") (if existsb (N.eqb 47) (cf_bin c) then cf_bin c
                       else cf_bin c ++ L " [currently resolves to: "
                            ++ (match find_executable (cf_bin c) with Some p => p | None => L "None" end) ++ L "]");
   kecho (L "prefer-encrypt") (cf_pref c);
   kecho (L "own-keyhandle") (sa_kh st)]
  ++ map (kecho (L "^^ uid")) (sa_uids st)
  ++ match peers with
     | None => []
     | Some [] => [L "  ---- no peers registered -----"]
     | Some _ => L "  ----peers-----" :: map peer_line (sa_peers st)
     end.
Definition cmd_status_account (acct : text) (verbose : bool) : prog cop (list text) :=
  g <- get_bingpg acct ;;
  st <- cli_status_account acct verbose ;;
  peers <- (if verbose then l <- get_peername_list acct ;; Ret (Some l) else Ret None) ;;
  Ret (account_lines (gp_home g) st peers).

(** cmdline.py:499-508 _status *)
Definition cmd_status_all (verbose : bool) : prog cop (list text) :=
  names <- list_account_names ;;
  match names with
  | [] => Ret [L "account-dir: " ++ basedir; L "no accounts configured"]
  | _ =>
    ls <- mapM (fun n => a <- get_account n true ;; l <- cmd_status_account a verbose ;; Ret (l ++ [[]])) names ;;
    Ret ((L "account-dir: " ++ basedir) :: concat ls)
  end.

(** cmdline.py:226-249 peerstate *)
Definition show_time (t : Z) : text := if Z.eqb t 0 then [] else isoformat t.
Definition field16 (name value : text) : text := pad 16 name ++ L " " ++ value.
Definition peerstate_lines (p : peerstate_out) : list text :=
  [field16 (L "peer address") (po_addr p);
   field16 (L "keyhandle") (po_kh p);
   field16 (L "direct_key") (if po_direct p then L "True" else L "False");
   field16 (L "prefer_encrypt") (po_pref p);
   field16 (L "last_seen") (show_time (po_last_seen p));
   field16 (L "last_msg") (po_last_msg p);
   field16 (L "ac timestamp") (show_time (po_ac_timestamp p));
   field16 (L "last_ac_msg") (po_last_ac_msg p)].

(** cmdline.py:252-281 process-incoming, with states.py:111-114 PeerState.__str__ *)
Definition cmd_process_incoming (name : option text) (reparse no_decrypt : bool) (m : msg) : prog cop (list text) :=
  a <- match name with
       | None => get_matching_account m
       | Some n => get_account n true
       end ;;
  r <- process_incoming a m (negb reparse) no_decrypt ;;
  match r with
  | None =>
    Ret [L "message with " ++ (match hget m (L "Message-Id") with Some i => i | None => L "None" end)
         ++ L " already known, skipping processing"]
  | Some i =>
    l <- perform (CRead (in_chain i)) ;;
    Ret [L "processed mail for account '" ++ in_acct i ++ L "', "
         ++ (if Z.eqb (autocrypt_timestamp l) (last_seen l)
             then L "found: PeerState addr=" ++ peer_addr (in_chain i) ++ L " key=" ++ public_keyhandle l
             else L "no Autocrypt header found")]
  end.

(** cmdline.py:404-434 sendmail: the path of the program, and the process *)
Definition sendmail_path : text :=
  match find_executable (L "sendmail") with
  | Some p => if nonempty p then p else L "/usr/sbin/sendmail"
  | None => L "/usr/sbin/sendmail"
  end.
Definition cmd_sendmail (args : list text) (m : msg) : prog cop printed :=
  assert_ (nonempty args) ;;;
  m' <- cli_process_outgoing m ;;
  t <- lift (as_string m') ;;
  inp <- lift (encode_utf8 t) ;;
  let argv := sendmail_path :: args in
  ret <- lift (popen argv inp) ;;
  if Z.eqb ret 0 then Ret (Printed [] 0 (Some (argv, inp)))
  else Ret (Printed [L "sendmail return " ++ (if Z.ltb ret 0 then L "-" else []) ++ dec_N (Z.abs_N ret)
                     ++ L " exitcode, path: " ++ sendmail_path] ret (Some (argv, inp))).

(** cmdline.py:437-462 import-public-key *)
Definition cmd_import (name pref : text) (email : option text) (stdin : text) : prog cop (list text) :=
  a <- get_account name true ;;
  if is_ascii stdin then
    r <- import_keydata_as_autocrypt a email stdin pref ;;
    Ret ((L "imported key " ++ repr (ir_kh r) ++ L " with prefer-encrypt=" ++ ir_pref r ++ L " for addresses")
         :: map (fun x => L " " ++ x) (ir_addrs r))
  else Raise UnicodeError.

Definition out (p : prog cop (list text)) : prog cop printed := l <- p ;; Ret (Printed l 0 None).

Definition command_prog (c : command) : prog cop printed :=
  match c with
  | CmdDestroyAll yes =>                                   (* 41-64 *)
      if yes then
        v <- mgr_version ;;
        match v with
        | Some _ => remove_all ;;; Ret (Printed [L "deleting directory: " ++ basedir] 0 None)
        | None => Ret (Printed [] 0 None)
        end
      else Ret (Printed [L "specify --yes if you really want to destroy all state"] 1 None)
  | CmdAdd n sys key bin regex =>                          (* 107-138 *)
      out (a <- add_account n regex key bin (if sys then L "system" else L "own") ;;
           l <- cmd_status_account a false ;;
           Ret ((L "account added: '" ++ a ++ L "'") :: l))
  | CmdMod n key bin regex pref =>                         (* 141-160 *)
      out ('(changed, a) <- mod_account n regex key (Some (match bin with Some b => b | None => L "gpg" end)) pref ;;
           l <- cmd_status_account a false ;;
           Ret ((L "account" ++ (if changed then L " " else L " NOT ") ++ L "modified: '" ++ a ++ L "'") :: l))
  | CmdDel n =>                                            (* 163-174 *)
      out (del_account n ;;;
           l <- cmd_status_all true ;;
           Ret ((L "account deleted: " ++ repr n) :: l))
  | CmdFind adr =>                                         (* 177-187 *)
      out (r <- get_account_from_emailadr adr true ;;
           match r with Some a => Ret [a] | None => Raise AttributeError end)
  | CmdMakeHeader val adr =>                               (* 190-204 *)
      out (v <- cli_make_header adr ;; Ret [if val then v else L "Autocrypt: " ++ v])
  | CmdRecommend n adrs =>                                 (* 207-219 *)
      out (r <- cli_recommend n adrs ;; Ret [match r with Some r => r | None => L "None" end])
  | CmdPeerstate n adr =>                                  (* 222-249 *)
      out (p <- cli_peerstate n adr ;; Ret (peerstate_lines p))
  | CmdIncoming n reparse nd m => out (cmd_process_incoming n reparse nd m)
  | CmdOutgoing m =>                                       (* 358-370 *)
      out (m' <- cli_process_outgoing m ;; t <- lift (as_string m') ;; Ret [t])
  | CmdSendmail args m => cmd_sendmail args m
  | CmdImport n pref email stdin => out (cmd_import n pref email stdin)
  | CmdExport n kh =>                                      (* 465-473 *)
      out (a <- get_account n true ;; b <- export_public_key a kh ;; Ret [b])
  | CmdExportSecret n =>                                   (* 476-483 *)
      out (a <- get_account n true ;; b <- export_secret_key a ;; Ret [b])
  | CmdStatus n verbose =>                                 (* 486-496 *)
      out (match n with
           | None => cmd_status_all verbose
           | Some n => a <- get_account n true ;; cmd_status_account a verbose
           end)
  end.

End Commands.
