(** Vocabulary of the properties of the commands C61-C63. *)
From Verif Require Import Base PyStr Env Prog Chain Gpg Mime States Recommendation Account Cmdline Bot Fs Api Spec PeerSpec RecSpec OutSpec AcctSpec Commands.

Section CmdSpec.
Context {E : Env} {Sh : Shell}.

(** what a command gives, and the state it leaves *)
Definition outcome_of (s : ast) (c : command) : result printed := snd (arun (command_prog c) s).
Definition left_by (s : ast) (c : command) : ast := fst (arun (command_prog c) s).
(** the command succeeds and prints these lines *)
Definition prints (s : ast) (c : command) (lines : list text) : Prop := outcome_of s c = Ok (Printed lines 0 None).

(** the call of the API a command makes *)
Definition counterpart (c : command) : option api :=
  match c with
  | CmdDestroyAll yes => Some (ACliDestroy yes)
  | CmdAdd n sys key bin regex => Some (ACliAdd n sys key bin regex)
  | CmdMod n key bin regex pref => Some (ACliMod n key bin regex pref)
  | CmdDel n => Some (ACliDel n)
  | CmdFind adr => Some (AFind adr true)
  | CmdRecommend n adrs => Some (ARecommend n adrs false)
  | CmdPeerstate n adr => Some (ACliPeerstate n adr)
  | CmdIncoming n reparse nd m => Some (ACliIncoming n reparse nd m)
  | CmdOutgoing m => Some (ACliOutgoing m)
  | CmdSendmail args m => match args with [] => None | _ => Some (ACliOutgoing m) end
  | CmdImport n pref email stdin => if is_ascii stdin then Some (AImport n email stdin pref) else None
  | CmdExport n kh => Some (AExportPub n kh)
  | CmdExportSecret n => Some (AExportSec n)
  | CmdStatus None verbose => Some (ACliStatus verbose)
  | CmdStatus (Some _) _ | CmdMakeHeader _ _ => None
  end.

(** the path of the sendmail program: the one found, or else the usual one *)
Definition sendmail_program (p : text) : Prop :=
  match find_executable (L "sendmail") with
  | Some q => (q <> [] /\ p = q) \/ (q = [] /\ p = L "/usr/sbin/sendmail")
  | None => p = L "/usr/sbin/sendmail"
  end.

(** name and value in two columns *)
Definition column (t : text) (width : nat) (c : text) : Prop := exists n, c = t ++ repeat 32%N n /\ length c = Nat.max (length t) width.
Definition row (indent name value line : text) : Prop := exists c, column name 16 c /\ line = indent ++ c ++ L " " ++ value.

(** what the status command says about a peer *)
Definition peer_text (v : peer_view) (how : text) : text :=
  L "  " ++ pv_addr v ++ L ": last seen key " ++ pv_keyhandle v ++ L ", status: " ++ how ++ L ", last_seen: " ++ ctime (pv_last_seen v).
Definition peer_text_of (v : peer_view) : list text :=
  if up_to_date v then [peer_text v (L "last-was-autocrypt")]
  else match pv_keyhandle v with [] => [] | _ => [peer_text v (L "past-autocrypt")] end.

(** user ids that gpg printed for a key *)
Definition uids_listed (s s' : ast) (kh : text) (us : list text) : Prop :=
  exists home argv r out, ran s s' (GCall home argv None None) /\
    (exists pre, argv = pre ++ [L "--with-colons"; L "--list-public-keys"; kh]) /\
    utf8 (g_out (snd (gpg r argv None None))) = Some out /\
    forall u, In u us -> exists line, In line (splitlines out) /\
      (record_of line = RUid u \/ (u <> [] /\ exists i, record_of line = RPub i u \/ record_of line = RSub i u)).

(** The lines printed for account [n], the state of which is that of [s]: settings and key,
    one line for every user id, the peers. *)
Definition account_text (s s' : ast) (n : text) (verbose : bool) (lines : list text) : Prop :=
  exists c kh us l1 l2 l3 l4 l5 ls tail, own_of s n = Some (c, kh) /\ uids_listed s s' kh us /\
    lines = [L "account: '" ++ n ++ L "'"; l1; l2; l3; l4; l5] ++ ls ++ tail /\
    row (L "  ") (L "email_regex:") (cf_regex c) l1 /\
    (cf_mode c = L "own" -> row (L "  ") (L "gpgmode:") (L "own [home: " ++ own_gpghome n ++ L "]") l2) /\
    (cf_mode c <> L "own" -> row (L "  ") (L "gpgmode:") (cf_mode c) l2) /\
    (In 47%N (cf_bin c) -> row (L "  ") (L "gpgbin:") (cf_bin c) l3) /\
    (forall p, ~ In 47%N (cf_bin c) -> find_executable (cf_bin c) = Some p ->
       row (L "  ") (L "gpgbin:") (cf_bin c ++ L " [currently resolves to: " ++ p ++ L "]") l3) /\
    row (L "  ") (L "prefer-encrypt:") (cf_pref c) l4 /\
    row (L "  ") (L "own-keyhandle:") kh l5 /\
    Forall2 (row (L "  ") (L "^^ uid:")) us ls /\
    if verbose
    then exists xs vs, peers_of s n = Some xs /\ Forall2 (fun x v => peer_of s n x = Some v) xs vs /\
         tail = match xs with [] => [L "  ---- no peers registered -----"] | _ => L "  ----peers-----" :: concat (map peer_text_of vs) end
    else tail = [].

(** one after the other, each followed by an empty line *)
Inductive accounts_text (verbose : bool) : ast -> list text -> list text -> ast -> Prop :=
| at_nil s : accounts_text verbose s [] [] s
| at_cons s n ns l ls s1 s2 : a_logs s1 = a_logs s -> account_text s s1 n verbose l -> accounts_text verbose s1 ns ls s2 ->
    accounts_text verbose s (n :: ns) (l ++ [[]] ++ ls) s2.

End CmdSpec.
