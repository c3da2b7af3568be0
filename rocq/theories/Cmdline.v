(** /repo/muacrypt/cmdline.py and cmdline_utils.py: the logic of the subcommands.  Printed
    text is represented by the values it is made of.  An AccountException that reaches the
    top is printed and turned into exit code 1 (cmdline_utils.py:36-46); here it stays an
    exception. *)
From Verif Require Import Base PyStr Env Prog Chain Gpg Mime States Recommendation Account.

Section Cmdline.
Context {E : Env}.

(** ** destroy-all, cmdline.py:41-64.  Result: whether anything was deleted; without --yes the
    command exits before. *)
Definition cli_destroy_all (yes : bool) : prog cop bool :=
  if yes then
    v <- mgr_version ;;
    match v with
    | Some _ => remove_all ;;; Ret true
    | None => Ret false
    end
  else Ret false.

(** ** status, cmdline.py:486-560.  For every account: its configuration, key handle, the uids of
    its key (printed as a Python set: order and repetition have no meaning) and the peers
    listed with --verbose: address, key handle, last_seen and status. *)
Record status_peer := StatusPeer { sp_addr : text; sp_kh : text; sp_seen : Z; sp_last_was_ac : bool }.
Record status_account := StatusAccount { sa_cfg : cfg_entry; sa_kh : text; sa_uids : list text; sa_peers : list status_peer }.

(** one iteration of the loop 545-558 *)
Definition status_peer_line (acct name : text) : prog cop (list status_peer) :=
  let chain := peerstate_chain acct name in
  l <- perform (CRead chain) ;;
  if Z.eqb (last_seen l) (autocrypt_timestamp l) then
    Ret [StatusPeer (peer_addr chain) (public_keyhandle l) (last_seen l) true]
  else if nonempty (public_keyhandle l) then
    Ret [StatusPeer (peer_addr chain) (public_keyhandle l) (last_seen l) false]
  else Ret [].

(** 511-560 _status_account *)
Definition cli_status_account (acct : text) (verbose : bool) : prog cop status_account :=
  c <- own_config acct ;;
  g <- get_bingpg acct ;;
  kh <- own_keyhandle acct ;;
  infos <- list_public_keyinfos g kh ;;
  peers <- (if verbose then
              names <- get_peername_list acct ;;
              ls <- mapM (status_peer_line acct) names ;;
              Ret (concat ls)
            else Ret []) ;;
  Ret (StatusAccount c kh (concat (map ki_uids infos)) peers).

(** 499-508 _status *)
Definition cli_status (verbose : bool) : prog cop (list status_account) :=
  names <- list_account_names ;;
  mapM (fun n => a <- get_account n true ;; cli_status_account a verbose) names.

(** ** add-account, cmdline.py:107-138 *)
Definition cli_add_account (name : text) (use_system : bool) (use_key : option text) (gpgbin : text) (regex : option text) : prog cop status_account :=
  a <- add_account name regex use_key gpgbin (if use_system then L "system" else L "own") ;;
  cli_status_account a false.

(** ** mod-account, cmdline.py:141-160: --gpgbin has the default "gpg" (lines 77-80), which is
    passed on when the option is not given *)
Definition cli_mod_account (name : text) (use_key gpgbin regex pref : option text) : prog cop (bool * status_account) :=
  '(changed, a) <- mod_account name regex use_key
                     (Some (match gpgbin with Some b => b | None => L "gpg" end)) pref ;;
  st <- cli_status_account a false ;;
  Ret (changed, st).

(** ** del-account, cmdline.py:163-174 *)
Definition cli_del_account (name : text) : prog cop (list status_account) :=
  del_account name ;;; cli_status true.

(** ** make-header, cmdline.py:190-204 *)
Definition cli_make_header (emailadr : text) : prog cop text :=
  r <- get_account_from_emailadr emailadr true ;;
  match r with
  | Some a => make_ac_header a emailadr
  | None => Raise AttributeError
  end.

(** ** peerstate, cmdline.py:222-249: the fields printed *)
Record peerstate_out := PeerstateOut {
  po_addr : text; po_kh : text; po_direct : bool; po_pref : text;
  po_last_seen : Z; po_last_msg : text; po_ac_timestamp : Z; po_last_ac_msg : text }.
Definition latest_msg_id (l : list block) : text :=
  match latest_msg_entry l with Some e => me_id e | None => [] end.
Definition cli_peerstate (name emailadr : text) : prog cop peerstate_out :=
  a <- get_account name true ;;
  let chain := peerstate_chain a emailadr in
  l <- perform (CRead chain) ;;
  (* lines 243 and 247 both use _latest_msg_entry *)
  Ret (PeerstateOut (peer_addr chain) (public_keyhandle l) (has_direct_key l) (peer_prefer_encrypt l)
                    (last_seen l) (latest_msg_id l) (autocrypt_timestamp l) (latest_msg_id l)).

(** ** process-incoming, cmdline.py:252-281.  None = "already known"; otherwise account and
    whether it says "found". *)
Definition cli_process_incoming (name : option text) (reparse no_decrypt : bool) (m : msg) : prog cop (option (text * bool)) :=
  a <- match name with
       | None => get_matching_account m
       | Some n => get_account n true
       end ;;
  r <- process_incoming a m (negb reparse) no_decrypt ;;
  match r with
  | None => Ret None
  | Some i =>
    l <- perform (CRead (in_chain i)) ;;
    Ret (Some (in_acct i, Z.eqb (autocrypt_timestamp l) (last_seen l)))
  end.

(** ** scandir-incoming, cmdline.py:284-355.  A directory is a list of (mtime, message) in
    listing order. *)
Inductive scan_status :=
| ScanTooOld            (* file or message older than 90 days *)
| ScanNoId              (* no Message-Id: silently skipped *)
| ScanNoAccount         (* routing failed *)
| ScanNoDecrypt         (* gpg failed *)
| ScanKnown             (* already known *)
| ScanFound (updated : bool)
| ScanError (e : text).

Definition ninety_days : Z := (90 * 24 * 60 * 60 * sec)%Z.
Definition is_too_old (now d : Z) : bool := Z.ltb ninety_days (now - d).

Definition scan_one (reparse : bool) (now : Z) (file : Z * msg) : prog cop scan_status :=
  let '(mtime, m) := file in
  if is_too_old now mtime then Ret ScanTooOld
  else
    match hget m (L "message-id") with
    | None => Ret ScanNoId
    | Some id =>
      d <- lift (parse_date_to_float (hget m (L "Date"))) ;;
      date <- effective_date d ;;
      if is_too_old now date then Ret ScanTooOld
      else
        acct <- catch (a <- get_matching_account m ;; Ret (Some a))
                      (fun e => match e with
                                | AccountNotFound | ValueError | UnicodeError => Some (Ret None)
                                | _ => None
                                end) ;;
        match acct with
        | None => Ret ScanNoAccount
        | Some a =>
          r <- catch (i <- process_incoming a m (negb reparse) false ;; Ret (Some i))
                     (fun e => match e with InvocationFailure => Some (Ret None) | _ => None end) ;;
          match r with
          | None => Ret ScanNoDecrypt
          | Some None => Ret ScanKnown
          | Some (Some i) =>
            if has_error (in_pah i) then
              Ret (ScanError (match p_error (in_pah i) with Some e => e | None => [] end))
            else
              l <- perform (CRead (in_chain i)) ;;
              Ret (ScanFound (Z.eqb (in_date i) (autocrypt_timestamp l)))
          end
        end
    end.

Definition cli_scandir (reparse : bool) (files : list (Z * msg)) : prog cop (list scan_status) :=
  now <- perform CTime ;;
  mapM (scan_one reparse now) files.

(** ** process-outgoing, cmdline.py:358-394 (sendmail: Commands.v) *)
Definition cli_process_outgoing (m : msg) : prog cop msg :=
  let resent := match hget m (L "Resent-From") with Some r => r | None => [] end in
  if nonempty resent then
    r <- get_account_from_emailadr (parse_email_addr (Some resent)) false ;;
    match r with Some _ => Ret m | None => Raise ClickException end
  else
    r <- get_account_from_emailadr (parse_email_addr (hget m (L "From"))) false ;;
    match r with
    | None => Raise ClickException
    | Some a => o <- process_outgoing a m ;; Ret (out_msg o)
    end.

(** ** import-public-key, export, recommend: cmdline.py:207-219, 437-473 *)
Definition cli_recommend (name : text) (adrs : list text) : prog cop (option text) :=
  a <- get_account name true ;; recommend a (map Some adrs) false None.
Definition cli_import (name : text) (pref : text) (email : option text) (keydata : bytes) : prog cop import_result :=
  a <- get_account name true ;; import_keydata_as_autocrypt a email keydata pref.

(** ** cmdline_utils.py:65-69 trunc_string.  s[:(maxlen-20)] with maxlen < 20 counts from the
    end of the string. *)
Definition py_take (i : Z) (s : text) : text :=
  if Z.ltb i 0 then firstn (Z.to_nat (Z.of_nat (length s) + i)) s else firstn (Z.to_nat i) s.
Definition trunc_string (s : text) (maxlen : nat) : text :=
  if Nat.leb (length s) maxlen then s
  else py_take (Z.of_nat maxlen - 20) s
       ++ L "[truncated " ++ dec_N (N.of_nat (length s - maxlen + 20)) ++ L " chars]".

End Cmdline.
