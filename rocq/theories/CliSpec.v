(** Vocabulary of the properties of the bot, the command line and helper functions. *)
From Verif Require Import Base PyStr Env Prog Chain Gpg Mime States Recommendation Account Cmdline Bot Fs Api Spec PeerSpec OutSpec MimeTree.

(** ** Strings *)
Definition suffix_of (a b : text) : Prop := exists p, b = p ++ a.
Definition occurs_in (a b : text) : Prop := exists p q, b = p ++ a ++ q.
(** value of a string of decimal digits *)
Definition decimal (t : text) : N := fold_left (fun n d => (10 * n + (d - 48))%N) t 0%N.
Definition digit (c : N) : Prop := (48 <= c <= 57)%N.
(** [t] is the usual way to write [n]: digits only, without leading zeros *)
Definition written (n : N) (t : text) : Prop :=
  Forall digit t /\ decimal t = n /\ t <> [] /\ (n <> 0%N -> hd_error t <> Some 48%N).

(** ** What the bot's log can be used for: lines, sections that are left normally or by an
    exception, and exceptions. *)
Inductive script :=
| Done
| Line (t : text) (k : script)
| Fail (e : exn)
| Section (title : text) (raising : bool) (body k : script).
Fixpoint run_script (tb : exn -> text) (p : script) (s : simplelog) : simplelog * result unit :=
  match p with
  | Done => (s, Ok tt)
  | Line t k => run_script tb k (log_call s t)
  | Fail e => (s, Err e)
  | Section title raising body k =>
    match log_section title raising tb (run_script tb body) s with
    | (s', Ok _) => run_script tb k s'
    | (s', Err e) => (s', Err e)
    end
  end.
(** a line indented by at least n levels *)
Definition indented (n : nat) (l : text) : Prop := exists r, l = repeat 32%N (2 * n) ++ r.
(** the indentation is the same as before; the lines added are indented at least that far *)
Definition appended (s s' : simplelog) : Prop :=
  sl_indent s' = sl_indent s /\ exists new, sl_lines s' = sl_lines s ++ new /\ Forall (indented (sl_indent s)) new.
(** no exception can leave the script *)
Fixpoint safe (p : script) : bool :=
  match p with
  | Done => true
  | Line _ k => safe k
  | Fail _ => false
  | Section _ raising body k => (negb raising || safe body) && safe k
  end.

(** ** Mime trees *)
(** the parts in the order of the mail, with their depth *)
Fixpoint parts_of (n : nat) (m : msg) {struct m} : list (nat * msg) :=
  match m with
  | Msg h b =>
    (n, Msg h b) :: match b with PParts l => flat_map (parts_of (S n)) l | _ => [] end
  end.
Definition multipart (m : msg) : bool := match m_body m with PParts _ => true | _ => false end.
Definition one_line (t : text) : Prop := ~ In 10%N t.

Section CliSpec.
Context {E : Env}.

(** a part can be shown: it is not an empty multipart, has a payload, its length can be
    determined *)
Definition showable (D : display) (m : msg) : Prop :=
  match m_body m with
  | PParts l => l <> [] /\ exists n, d_length D m = Ok n
  | PNone => False
  | _ => True
  end.
(** and what is shown of it has no line breaks *)
Definition flat (D : display) (m : msg) : Prop :=
  one_line (get_content_type m) /\
  (forall c, d_charset D m = Some c -> one_line c) /\
  (forall f, d_filename D m = Some f -> one_line f) /\
  (forall v, hget m (L "subject") = Some v -> one_line v).
(** one line of the tree for a part at the given depth: a column per enclosing part, a branch,
    the kind of part, and its content type *)
Definition tree_line (p : nat * msg) (line : text) : Prop :=
  exists cols branch rest,
    line = cols ++ [branch; if multipart (snd p) then c_node else c_leaf; c_arm] ++ get_content_type (snd p) ++ rest /\
    length cols = fst p /\ Forall (fun c => c = 32%N \/ c = c_bar) cols /\ (branch = c_last \/ branch = c_more).

(** ** gpg command lines *)
Definition home_args (home : list text) : Prop := home = [] \/ exists h, home = [L "--homedir"; h].
Definition pass_args (args : list text) : Prop :=
  args = [L "--passphrase"; L "123"] \/ args = [L "--passphrase"; L "123"; L "--pinentry-mode=loopback"].
(** the settings for a new key *)
Definition key_settings (addr : text) : text :=
  L "Key-Type: RSA" ++ [10%N] ++ L "Key-Length: 3072" ++ [10%N] ++ L "Key-Usage: sign" ++ [10%N] ++
  L "Subkey-Type: RSA" ++ [10%N] ++ L "Subkey-Length: 3072" ++ [10%N] ++ L "Subkey-Usage: encrypt" ++ [10%N] ++
  L "Name-Email: " ++ addr ++ [10%N] ++ L "Expire-Date: 0" ++ [10%N] ++ L "%commit".
(** all commands muacrypt gives to gpg: the passphrase arguments, all arguments, what is passed
    on standard input, and what is written to the temporary file named in the arguments *)
Inductive gpg_use (pass : list text) : list text -> option bytes -> option bytes -> Prop :=
| use_list secret kh : gpg_use pass [L "--skip-verify"; L "--with-colons"; if secret : bool then L "--list-secret-keys" else L "--list-public-keys"; kh] None None
| use_generate addr spec : to_utf8 (key_settings addr) = Some spec -> gpg_use pass (pass ++ [L "--gen-key"; L "<tmpfile>"]) None (Some spec)
| use_export (armor : bool) kh :
    gpg_use pass ((if armor then [L "-a"] else []) ++ [L "--export-options=export-minimal"; L "--export"; kh]) None None
| use_export_secret (armor : bool) kh :
    gpg_use pass ((if armor then [L "-a"] else []) ++ pass ++ [L "--export-options=export-minimal"; L "--export-secret-key"; kh]) None None
| use_encrypt khs sign data :
    gpg_use pass (pass ++ [L "--encrypt"; L "--always-trust"] ++ concat (map (fun k => [L "-r"; k]) khs) ++ signing sign ++ [L "--armor"]) (Some data) None
| use_decrypt data : gpg_use pass (pass ++ [L "--with-colons"; L "--decrypt"]) (Some data) None
| use_import data : gpg_use pass [L "--skip-verify"; L "--import"] (Some data) None
| use_delete kh : gpg_use pass [L "--yes"; L "--delete-key"; kh] None None.
(** a key id as printed by gpg *)
Definition hex_id (k : text) : Prop := k <> [] /\ Forall (fun c => (48 <= c <= 57)%N \/ (65 <= c <= 70)%N) k.
(** the commands used for incoming mail *)
Inductive mail_use : list text -> option bytes -> option bytes -> Prop :=
| mail_list id : hex_id id -> mail_use [L "--skip-verify"; L "--with-colons"; L "--list-public-keys"; id] None None
| mail_decrypt pass data : pass_args pass -> mail_use (pass ++ [L "--with-colons"; L "--decrypt"]) (Some data) None
| mail_import data : mail_use [L "--skip-verify"; L "--import"] (Some data) None.
Definition mail_usage (g : gcall) : Prop :=
  exists path home args, gc_argv g = [path; L "--batch"] ++ home ++ args /\ home_args home /\ mail_use args (gc_in g) (gc_tmp g).
Definition gpg_usage (g : gcall) : Prop :=
  exists path home pass args, gc_argv g = [path; L "--batch"] ++ home ++ args /\ home_args home /\ pass_args pass /\
    gpg_use pass args (gc_in g) (gc_tmp g).

(** ** The bot *)
(** the address the bot was addressed by: Delivered-To, or else the one given *)
Definition bot_address (m : msg) (fallback : option text) (me : text) : Prop :=
  me <> [] /\
  ((me = parse_email_addr (hget m (L "Delivered-To")) /\ parse_email_addr (hget m (L "Delivered-To")) <> []) \/
   (parse_email_addr (hget m (L "Delivered-To")) = [] /\ exists f, fallback = Some f /\ f <> [] /\ me = parse_email_addr (Some f))).
(** everybody in To and Cc: real names and addresses *)
Definition addressed (m : msg) : list (text * text) := getaddresses (hget_all m (L "to") ++ hget_all m (L "cc")).
(** a list of header values made of a list of names and addresses *)
Definition formatted (ps : list (text * text)) (ts : list text) : Prop := Forall2 (fun p t => formataddr p = Ok t) ps ts.
Definition cc_field (ts : list text) : list text := match ts with [] => [] | _ => [join (L ",") ts] end.
(** Python sets: the elements of the list, each once, in any order *)
Definition set_laws : Prop := forall l, NoDup (set_order l) /\ forall x, In x (set_order l) <-> In x l.

(** those that are neither empty nor the bot *)
Definition others_of (me : text) (l : list (text * text)) : list (text * text) :=
  filter (fun p => nonempty (snd p) && negb (text_eqb (snd p) me)) l.
(** the state after decrypting, if needed *)
Definition bot_decrypted (a : text) (m : msg) (s1 s2 : ast) : Prop :=
  (get_content_type m <> L "multipart/encrypted" /\ s2 = s1) \/
  (get_content_type m = L "multipart/encrypted" /\ s2 = after s1 (ADecrypt a m) /\ exists dm infos, answer s1 (ADecrypt a m) = Ok (ODecrypted dm infos)).
Definition replying_encrypted (m : msg) : bool := text_eqb (get_content_type m) (L "multipart/encrypted").
(** and after drawing the message id and reading the clock *)
Definition drawn (s : ast) : ast := AState (a_logs s) (a_rings s) (S (a_tick s)) (S (a_uuid s)) (a_trace s).

(** ** Scanning a directory *)
Definition recent (now d : Z) : Prop := (now - d <= 90 * 24 * 60 * 60 * sec)%Z.
(** the same state after one more look at the clock *)
Definition ticked (s : ast) : ast := AState (a_logs s) (a_rings s) (S (a_tick s)) (a_uuid s) (a_trace s).
(** the mail of a file gets as far as being routed to an account *)
Definition examined (now : Z) (s : ast) (file : Z * msg) (d : Z) : Prop :=
  recent now (fst file) /\ hget (snd file) (L "message-id") <> None /\ dated (snd file) d /\ recent now (Z.min d (clock (a_tick s))).
(** What a scan reports for one file, and the state it leaves: files and mails that are too
    old and mails without Message-Id are skipped, mails for nobody are left alone; all others
    are processed for the account they are routed to. *)
Inductive scan_file (reparse : bool) (now : Z) (s : ast) (file : Z * msg) : scan_status -> ast -> Prop :=
| sf_old_file : ~ recent now (fst file) -> scan_file reparse now s file ScanTooOld s
| sf_no_id : recent now (fst file) -> hget (snd file) (L "message-id") = None -> scan_file reparse now s file ScanNoId s
| sf_old_mail d : recent now (fst file) -> hget (snd file) (L "message-id") <> None -> dated (snd file) d ->
    ~ recent now (Z.min d (clock (a_tick s))) -> scan_file reparse now s file ScanTooOld (ticked s)
| sf_nobody d e : examined now s file d -> answer (ticked s) (ARoute (snd file)) = Err e ->
    In e [AccountNotFound; ValueError; UnicodeError] ->
    scan_file reparse now s file ScanNoAccount (after (ticked s) (ARoute (snd file)))
| sf_no_decrypt d a : examined now s file d -> answer (ticked s) (ARoute (snd file)) = Ok (OText a) ->
    answer (ticked s) (AIncoming a (snd file) (negb reparse) false) = Err InvocationFailure ->
    scan_file reparse now s file ScanNoDecrypt (after (ticked s) (AIncoming a (snd file) (negb reparse) false))
| sf_known d a : examined now s file d -> answer (ticked s) (ARoute (snd file)) = Ok (OText a) ->
    answer (ticked s) (AIncoming a (snd file) (negb reparse) false) = Ok (OIncoming None) ->
    scan_file reparse now s file ScanKnown (after (ticked s) (AIncoming a (snd file) (negb reparse) false))
| sf_error d a i e : examined now s file d -> answer (ticked s) (ARoute (snd file)) = Ok (OText a) ->
    answer (ticked s) (AIncoming a (snd file) (negb reparse) false) = Ok (OIncoming (Some i)) -> p_error (in_pah i) = Some e -> e <> [] ->
    scan_file reparse now s file (ScanError e) (after (ticked s) (AIncoming a (snd file) (negb reparse) false))
| sf_found d a i v : examined now s file d -> answer (ticked s) (ARoute (snd file)) = Ok (OText a) ->
    answer (ticked s) (AIncoming a (snd file) (negb reparse) false) = Ok (OIncoming (Some i)) ->
    p_error (in_pah i) = None \/ p_error (in_pah i) = Some [] ->
    peer_of (after (ticked s) (AIncoming a (snd file) (negb reparse) false)) a (from_addr (snd file)) = Some v ->
    scan_file reparse now s file (ScanFound (Z.eqb (in_date i) (pv_ac_timestamp v)))
              (after (ticked s) (AIncoming a (snd file) (negb reparse) false)).
(** one after the other *)
Inductive scan_files (reparse : bool) (now : Z) : ast -> list (Z * msg) -> list scan_status -> ast -> Prop :=
| sfs_nil s : scan_files reparse now s [] [] s
| sfs_cons s f fs st sts s1 s2 : scan_file reparse now s f st s1 -> scan_files reparse now s1 fs sts s2 ->
    scan_files reparse now s (f :: fs) (st :: sts) s2.
(** The mails that stop a scan: the date cannot be converted, looking for the account or
    processing the mail raises something unexpected. *)
Inductive scan_breaks (reparse : bool) (now : Z) (s : ast) (file : Z * msg) (e : exn) : ast -> Prop :=
| sb_date : recent now (fst file) -> hget (snd file) (L "message-id") <> None ->
    parse_date_to_float (hget (snd file) (L "Date")) = Err e -> scan_breaks reparse now s file e s
| sb_route d : examined now s file d -> answer (ticked s) (ARoute (snd file)) = Err e ->
    ~ In e [AccountNotFound; ValueError; UnicodeError] ->
    scan_breaks reparse now s file e (after (ticked s) (ARoute (snd file)))
| sb_process d a : examined now s file d -> answer (ticked s) (ARoute (snd file)) = Ok (OText a) ->
    answer (ticked s) (AIncoming a (snd file) (negb reparse) false) = Err e -> e <> InvocationFailure ->
    scan_breaks reparse now s file e (after (ticked s) (AIncoming a (snd file) (negb reparse) false)).

(** processing incoming mail *)
Definition mail_call_only (c : api) : bool :=
  match c with AIncoming _ _ _ _ | ACliIncoming _ _ _ _ | ACliScandir _ _ => true | _ => false end.
(** some end of [s] is [t], except for case *)
Definition ends_like (s t : text) : Prop := exists r, suffix_of r s /\ length r = length t /\ lower r = lower t.

End CliSpec.
