(** C61-C63: the commands as they are typed: what is printed, the exit code, the program
    started.  Statements only; proofs are in CmdProofs*.v, the vocabulary is in CmdSpec.v. *)
From Verif Require Import Base PyStr Base64 Env Prog Chain Gpg Mime States Recommendation Account Cmdline Bot Fs Api Spec Obs PeerSpec RecSpec OutSpec AcctSpec
  CliSpec Commands CmdSpec CmdProofs CmdProofs2 Toy Demo PropsOut PropsAcct.
#[local] Existing Instance E0.   (* for the examples *)
(** the examples: sendmail succeeds unless its last argument is "bad" *)
Definition Sh0 : Shell := {|
  as_string := flatten; ctime := fun t => dec_N (Z.to_N t); isoformat := fun t => dec_N (Z.to_N t);
  popen := fun argv _ => Ok (if text_eqb (last argv []) (L "bad") then 75%Z else 0%Z) |}.
#[local] Existing Instance Sh0.
Definition lines_of (r : result printed) : result (list text * Z) := match r with Ok p => Ok (pr_lines p, pr_exit p) | Err e => Err e end.

(** ** C61 *)
(** Every command leaves the state that its call of the API leaves, and fails as that fails. *)
Theorem C61_commands_make_their_calls : forall (E : Env) (Sh : Shell) s c x, counterpart c = Some x ->
  left_by s c = after s x /\ (forall e, answer s x = Err e -> outcome_of s c = Err e).
Proof. exact @c61_calls. Qed.
Print Assumptions C61_commands_make_their_calls.

Theorem C61_find : forall (E : Env) (Sh : Shell) s adr lines, reachable s ->
  prints s (CmdFind adr) lines <-> exists a, first_of s adr a /\ lines = [a].
Proof. exact @c61_find. Qed.
Print Assumptions C61_find.

Theorem C61_recommend : forall (E : Env) (Sh : Shell) s n adrs lines, reachable s ->
  prints s (CmdRecommend n adrs) lines <-> exists r, recommended s n adrs false r /\ lines = [r].
Proof. exact @c61_recommend. Qed.
Print Assumptions C61_recommend.

(** The header printed, pasted into a mail with that sender, carries the key and preference
    of the first account that matches. *)
Theorem C61_make_header : forall (E : Env) (Sh : Shell) s val adr p, reachable s -> outcome_of s (CmdMakeHeader val adr) = Ok p ->
  exists a c kh key v, first_of s adr a /\ left_by s (CmdMakeHeader val adr) = after s (AHeader a adr) /\
    own_of s a = Some (c, kh) /\ own_public_key s (after s (AHeader a adr)) kh key /\
    p = Printed [if val then v else L "Autocrypt: " ++ v] 0 None /\
    (is_bytes key = true -> key <> [] -> ~ In 59%N (norm adr) -> norm (strip (norm adr)) = norm adr ->
     key_header v (norm adr) key (cf_pref c) /\
     forall m, get_content_type m <> L "multipart/report" -> (length (getaddresses (hget_all m (L "From"))) <= 1)%nat ->
       sender_of m = norm adr -> hget_all m (L "Autocrypt") = [v] -> carries m key (cf_pref c)).
Proof. exact @c61_make_header. Qed.
Print Assumptions C61_make_header.

Theorem C61_export : forall (E : Env) (Sh : Shell) s n kh lines,
  (prints s (CmdExport n kh) lines <-> exists b, answer s (AExportPub n kh) = Ok (OBytes b) /\ lines = [b]) /\
  (prints s (CmdExportSecret n) lines <-> exists b, answer s (AExportSec n) = Ok (OBytes b) /\ lines = [b]).
Proof. exact @c61_export. Qed.
Print Assumptions C61_export.

Theorem C61_process_outgoing : forall (E : Env) (Sh : Shell) s m lines, prints s (CmdOutgoing m) lines <->
  exists m' t, answer s (ACliOutgoing m) = Ok (OMsg m') /\ as_string m' = Ok t /\ lines = [t].
Proof. exact @c61_outgoing. Qed.
Print Assumptions C61_process_outgoing.

(** The address and key handle named are those of the sender in the state left; a header is
    reported if and only if the call says so. *)
Theorem C61_process_incoming : forall (E : Env) (Sh : Shell) s name reparse nd m p, reachable s -> outcome_of s (CmdIncoming name reparse nd m) = Ok p ->
  exists r, answer s (ACliIncoming name reparse nd m) = Ok (OCliIncoming r) /\
  match r with
  | None => exists id, p = Printed [L "message with " ++ id ++ L " already known, skipping processing"] 0 None /\
              forall i, hget m (L "Message-Id") = Some i -> id = i
  | Some (a, false) => p = Printed [L "processed mail for account '" ++ a ++ L "', no Autocrypt header found"] 0 None
  | Some (a, true) => exists v, peer_of (left_by s (CmdIncoming name reparse nd m)) a (from_addr m) = Some v /\
      p = Printed [L "processed mail for account '" ++ a ++ L "', found: PeerState addr=" ++ pv_addr v ++ L " key=" ++ pv_keyhandle v] 0 None
  end.
Proof. exact @c61_incoming. Qed.
Print Assumptions C61_process_incoming.

Theorem C61_import_public_key : forall (E : Env) (Sh : Shell) s n pref email stdin lines,
  (is_ascii stdin = true ->
   (prints s (CmdImport n pref email stdin) lines <-> exists r, answer s (AImport n email stdin pref) = Ok (OImport r) /\
      lines = (L "imported key '" ++ ir_kh r ++ L "' with prefer-encrypt=" ++ ir_pref r ++ L " for addresses") :: map (fun x => L " " ++ x) (ir_addrs r))) /\
  (is_ascii stdin = false -> reachable s -> has_account s n ->
   outcome_of s (CmdImport n pref email stdin) = Err UnicodeError /\ left_by s (CmdImport n pref email stdin) = s).
Proof. exact @c61_import. Qed.
Print Assumptions C61_import_public_key.

Theorem C61_peerstate : forall (E : Env) (Sh : Shell) s n adr p, reachable s -> outcome_of s (CmdPeerstate n adr) = Ok p ->
  exists v o l1 l2 l3 l4 l5 l6 l7 l8, peer_of s n adr = Some v /\ answer s (ACliPeerstate n adr) = Ok (OPeerstate o) /\
    p = Printed [l1; l2; l3; l4; l5; l6; l7; l8] 0 None /\ left_by s (CmdPeerstate n adr) = s /\
    row [] (L "peer address") (pv_addr v) l1 /\ row [] (L "keyhandle") (pv_keyhandle v) l2 /\
    row [] (L "direct_key") (if pv_direct v then L "True" else L "False") l3 /\ row [] (L "prefer_encrypt") (pv_pref v) l4 /\
    row [] (L "last_seen") (if Z.eqb (pv_last_seen v) 0 then [] else isoformat (pv_last_seen v)) l5 /\ row [] (L "last_msg") (po_last_msg o) l6 /\
    row [] (L "ac timestamp") (if Z.eqb (pv_ac_timestamp v) 0 then [] else isoformat (pv_ac_timestamp v)) l7 /\ row [] (L "last_ac_msg") (po_last_ac_msg o) l8.
Proof. exact @c61_peerstate. Qed.
Print Assumptions C61_peerstate.

(** add-account and mod-account show the settings they leave, del-account shows what remains. *)
Theorem C61_add_account : forall (E : Env) (Sh : Shell) s n sys key bin regex p, reachable s -> outcome_of s (CmdAdd n sys key bin regex) = Ok p ->
  let call := AAdd n regex key bin (if sys then L "system" else L "own") in
  exists a lines, answer s call = Ok (OText a) /\ p = Printed ((L "account added: '" ++ a ++ L "'") :: lines) 0 None /\
    account_text (after s call) (left_by s (CmdAdd n sys key bin regex)) a false lines.
Proof. exact @c61_add. Qed.
Print Assumptions C61_add_account.
Theorem C61_mod_account : forall (E : Env) (Sh : Shell) s n key bin regex pref p, reachable s -> outcome_of s (CmdMod n key bin regex pref) = Ok p ->
  let call := AMod n regex key (Some (match bin with Some b => b | None => L "gpg" end)) pref in
  exists changed a lines, answer s call = Ok (OMod changed a) /\
    p = Printed ((if changed then L "account modified: '" ++ a ++ L "'" else L "account NOT modified: '" ++ a ++ L "'") :: lines) 0 None /\
    account_text (after s call) (left_by s (CmdMod n key bin regex pref)) a false lines.
Proof. exact @c61_mod. Qed.
Print Assumptions C61_mod_account.
Theorem C61_del_account : forall (E : Env) (Sh : Shell) s n p, reachable s -> outcome_of s (CmdDel n) = Ok p ->
  let s1 := after s (ADel n) in
  answer s (ADel n) = Ok ONone /\ exists lines, p = Printed ((L "account deleted: '" ++ n ++ L "'") :: lines) 0 None /\
    outcome_of s1 (CmdStatus None true) = Ok (Printed lines 0 None) /\ left_by s (CmdDel n) = left_by s1 (CmdStatus None true).
Proof. exact @c61_del. Qed.
Print Assumptions C61_del_account.

Theorem C61_destroy_all : forall (E : Env) (Sh : Shell) s yes, reachable s ->
  (yes = false -> outcome_of s (CmdDestroyAll yes) = Ok (Printed [L "specify --yes if you really want to destroy all state"] 1 None) /\
     left_by s (CmdDestroyAll yes) = s) /\
  (yes = true -> version_log s = [] -> prints s (CmdDestroyAll yes) [] /\ left_by s (CmdDestroyAll yes) = s) /\
  (yes = true -> version_log s <> [] -> prints s (CmdDestroyAll yes) [L "deleting directory: " ++ basedir] /\
     left_by s (CmdDestroyAll yes) = after s ARemove).
Proof. exact @c61_destroy. Qed.
Print Assumptions C61_destroy_all.

Example C61_example : reachable state1 /\
  lines_of (outcome_of state1 (CmdFind alice)) = Ok ([L "a"], 0%Z) /\
  lines_of (outcome_of state1 (CmdRecommend (L "a") [bob])) = Ok ([L "encrypt"], 0%Z) /\
  lines_of (outcome_of state1 (CmdMakeHeader false alice)) = Ok ([L "Autocrypt: " ++ our_value alice (L "mutual") own_key], 0%Z) /\
  lines_of (outcome_of state1 (CmdExport (L "a") None)) = Ok ([own_key], 0%Z) /\
  lines_of (outcome_of state1 (CmdIncoming None false false (mail bob alice (L "3000") (L "<9>") [(L "Delivered-To", alice)]))) =
    Ok ([L "processed mail for account 'a', no Autocrypt header found"], 0%Z) /\
  lines_of (outcome_of state1 (CmdImport (L "a") (L "mutual") None keyC)) =
    Ok ([L "imported key 'CCCCCCCCCCCCCCCC' with prefer-encrypt=mutual for addresses"; L " cccccccccccccccc@key"], 0%Z) /\
  lines_of (outcome_of state1 (CmdDestroyAll false)) = Ok ([L "specify --yes if you really want to destroy all state"], 1%Z).
Proof. split; [apply state1_reachable|]. repeat (split; [vm_compute; reflexivity|]). vm_compute. reflexivity. Qed.
Definition text_of_a (pref : text) : list text :=
  [L "account: 'a'"; L "  email_regex:     alice@a.org"; L "  gpgmode:         own [home: /dir/gpg/a]";
   L "  gpgbin:          gpg [currently resolves to: gpg]"; L "  prefer-encrypt:  " ++ pref;
   L "  own-keyhandle:   AAAAAAAAAAAA0000"; L "  ^^ uid:          own@key"].
Example C61_example_accounts :
  lines_of (outcome_of state1 (CmdMod (L "a") None None None (Some (L "nopreference")))) =
    Ok (L "account modified: 'a'" :: text_of_a (L "nopreference"), 0%Z) /\
  lines_of (outcome_of ast0 (CmdAdd (L "a") false None (L "gpg") (Some alice))) =
    Ok (L "account added: 'a'" :: text_of_a (L "nopreference"), 0%Z) /\
  lines_of (outcome_of state1 (CmdDel (L "a"))) = Ok ([L "account deleted: 'a'"; L "account-dir: /dir"; L "no accounts configured"], 0%Z) /\
  lines_of (outcome_of state1 (CmdPeerstate (L "a") bob)) =
    Ok ([L "peer address     bob@b.org"; L "keyhandle        BBBBBBBBBBBBBBB1"; L "direct_key       True"; L "prefer_encrypt   mutual";
         L "last_seen        4194304000"; L "last_msg         <1>"; L "ac timestamp     4194304000"; L "last_ac_msg      <1>"], 0%Z).
Proof. repeat (split; [vm_compute; reflexivity|]). vm_compute. reflexivity. Qed.

(** ** C62 *)
(** What the program sendmail gets is what process_outgoing made of the mail, in UTF-8; its
    arguments are those given, its exit code is that of the command; one that is not 0 is printed. *)
Theorem C62_sendmail_passes_on : forall (E : Env) (Sh : Shell) s args m p, outcome_of s (CmdSendmail args m) = Ok p ->
  args <> [] /\ exists m' t i path, answer s (ACliOutgoing m) = Ok (OMsg m') /\ as_string m' = Ok t /\ utf8 i = Some t /\
    sendmail_program path /\ pr_started p = Some (path :: args, i) /\ popen (path :: args) i = Ok (pr_exit p) /\
    (pr_exit p = 0%Z -> pr_lines p = []) /\
    (pr_exit p <> 0%Z -> exists n, written (Z.abs_N (pr_exit p)) n /\
      pr_lines p = [L "sendmail return " ++ (if Z.ltb (pr_exit p) 0 then L "-" else []) ++ n ++ L " exitcode, path: " ++ path]).
Proof. exact @c62_sent. Qed.
Print Assumptions C62_sendmail_passes_on.

(** A mail that is not resent and says ENCRYPT: yes is given to sendmail encrypted, by this
    command or before, and never with its ENCRYPT header. *)
Theorem C62_sendmail_never_in_the_clear_partial : forall (E : Env) (Sh : Shell) s args m p, reachable s ->
  hget m (L "Resent-From") = None \/ hget m (L "Resent-From") = Some [] -> outcome_of s (CmdSendmail args m) = Ok p ->
  exists a o t i path, first_of s (from_addr m) a /\ answer s (AOutgoing a m) = Ok (OOutgoing o) /\
    as_string (out_msg o) = Ok t /\ utf8 i = Some t /\ pr_started p = Some (path :: args, i) /\
    ~ has_header (out_msg o) (L "ENCRYPT") /\
    (control m = Some (L "yes") -> is_encrypted (out_msg o) = Ok true /\
      (is_encrypted m = Ok true \/ exists khs own clear data enc, m_body (out_msg o) = pgp_body enc /\ m_body clear = m_body m /\ flatten clear = Ok data /\
         gpg_encrypted s (left_by s (CmdSendmail args m)) khs own data enc)).
Proof. exact @c62_never_clear. Qed.
Print Assumptions C62_sendmail_never_in_the_clear_partial.

Theorem C62_sendmail_needs_arguments : forall (E : Env) (Sh : Shell) s m, outcome_of s (CmdSendmail [] m) = Err AssertionError /\ left_by s (CmdSendmail [] m) = s.
Proof. exact @c62_no_arguments. Qed.
Print Assumptions C62_sendmail_needs_arguments.

(** Missing: a resent mail that says ENCRYPT: yes is given to sendmail as it is. *)
Theorem C62_resent_in_the_clear_refuted : exists (E : Env) (Sh : Shell) s m p t i path, reached s /\ control m = Some (L "yes") /\
  is_encrypted m = Ok false /\ outcome_of s (CmdSendmail [L "-t"] m) = Ok p /\ as_string m = Ok t /\
  pr_started p = Some ([path; L "-t"], i) /\ utf8 i = Some t /\ pr_exit p = 0%Z.
Proof.
  exists E0, Sh0, state1, (to_both (yes ++ [(L "Resent-From", alice)])). do 4 eexists. split; [apply state1_reached|].
  repeat (split; [vm_compute; reflexivity|]). vm_compute. reflexivity.
Qed.
Print Assumptions C62_resent_in_the_clear_refuted.

Definition started (r : result printed) : result (list text * Z * option (list text)) :=
  match r with Ok p => Ok (pr_lines p, pr_exit p, option_map fst (pr_started p)) | Err e => Err e end.
Example C62_example : reachable state1 /\ control (to_both yes) = Some (L "yes") /\ hget (to_both yes) (L "Resent-From") = None /\
  started (outcome_of state1 (CmdSendmail [L "-t"] (to_both yes))) = Ok ([], 0%Z, Some [L "/usr/sbin/sendmail"; L "-t"]) /\
  started (outcome_of state1 (CmdSendmail [L "-t"; L "bad"] (to_both yes))) =
    Ok ([L "sendmail return 75 exitcode, path: /usr/sbin/sendmail"], 75%Z, Some [L "/usr/sbin/sendmail"; L "-t"; L "bad"]).
Proof. split; [apply state1_reachable|]. repeat (split; [vm_compute; reflexivity|]). vm_compute. reflexivity. Qed.

(** ** C63 *)
(** The status command changes nothing and tells what is stored. *)
Theorem C63_status_of_account_partial : forall (E : Env) (Sh : Shell) s n verbose p, reachable s -> outcome_of s (CmdStatus (Some n) verbose) = Ok p ->
  exists lines, p = Printed lines 0 None /\ a_logs (left_by s (CmdStatus (Some n) verbose)) = a_logs s /\
    account_text s (left_by s (CmdStatus (Some n) verbose)) n verbose lines.
Proof. exact @c63_account. Qed.
Print Assumptions C63_status_of_account_partial.

Theorem C63_status_of_all_partial : forall (E : Env) (Sh : Shell) s verbose p, reachable s -> outcome_of s (CmdStatus None verbose) = Ok p ->
  a_logs (left_by s (CmdStatus None verbose)) = a_logs s /\
  match accounts_of s with
  | [] => p = Printed [L "account-dir: " ++ basedir; L "no accounts configured"] 0 None
  | ns => exists lines, p = Printed ((L "account-dir: " ++ basedir) :: lines) 0 None /\
            accounts_text verbose s ns lines (left_by s (CmdStatus None verbose))
  end.
Proof. exact @c63_all. Qed.
Print Assumptions C63_status_of_all_partial.

(** Missing: the status of peers.  A peer that never sent a mail, known by gossip, is shown
    with a last mail that had an Autocrypt header. *)
Theorem C63_status_of_gossip_refuted : exists (E : Env) (Sh : Shell) s n v lines, reached s /\ s = after_all ast0 [add_a; in_a inside_gossip] /\
  sender_of inside_gossip <> pv_addr v /\ peer_of s n (pv_addr v) = Some v /\ pv_direct v = false /\
  prints s (CmdStatus (Some n) true) lines /\ In (peer_text v (L "last-was-autocrypt")) lines.
Proof.
  exists E0, Sh0, (after_all ast0 [add_a; in_a inside_gossip]), (L "a"), 
    (let g := GossipEntry (L "<g>") (1000 * sec) keyA (L "AAAAAAAAAAAAAAAA") in PeerView bob 0 0 (ge_kh g) keyA [] false (Some (inr g)) None (Some g)).
  eexists. split; [apply reached_after_all, reached_init|]. split; [reflexivity|]. split; [vm_compute; discriminate|]. split; [vm_compute; reflexivity|].
  split; [vm_compute; reflexivity|]. split; [vm_compute; reflexivity|]. vm_compute. auto 20.
Qed.
Print Assumptions C63_status_of_gossip_refuted.

Example C63_example : reachable state1 /\
  lines_of (outcome_of state1 (CmdStatus (Some (L "a")) false)) = Ok (text_of_a (L "mutual"), 0%Z) /\
  lines_of (outcome_of state1 (CmdStatus None true)) = Ok ([L "account-dir: /dir"] ++ text_of_a (L "mutual") ++
    [L "  ----peers-----";
     L "  bob@b.org: last seen key BBBBBBBBBBBBBBB1, status: last-was-autocrypt, last_seen: 4194304000";
     L "  carol@c.org: last seen key CCCCCCCCCCCCCCCC, status: last-was-autocrypt, last_seen: 8388608000"; []], 0%Z) /\
  lines_of (outcome_of ast0 (CmdStatus None true)) = Ok ([L "account-dir: /dir"; L "no accounts configured"], 0%Z).
Proof. split; [apply state1_reachable|]. repeat (split; [vm_compute; reflexivity|]). vm_compute. reflexivity. Qed.
