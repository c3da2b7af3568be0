(** C50-C60: the bot, the command line, gpg command lines, helpers.  Statements only; proofs
    are in CliProofs*.v, the vocabulary is in CliSpec.v. *)
From Verif Require Import Base PyStr Base64 Env Prog Chain Gpg Mime States Account Cmdline Bot Fs Api Spec Obs PeerSpec RecSpec OutSpec MimeTree CliSpec
  CliProofs CliProofs2 CliProofs3 Toy Demo PropsOut.
#[local] Existing Instance E0.   (* for the examples *)

(** The examples: state1 of PropsOut, in which alice is the bot and knows bob and carol. *)
Definition to_bot (from to cc : text) : msg :=
  mail from to (L "3000") (L "<5>") [(L "Cc", cc); (L "Delivered-To", alice); (L "Subject", L "hi"); (L "Autocrypt", ac_value from (L "mutual") keyB)].
Definition bot_says (m : msg) : result (option msg) :=
  match answer state1 (ABot None (L "log") m) with Ok (OOptMsg r) => Ok r | Ok _ => Err TypeError | Err e => Err e end.
Definition shown (r : result (option msg)) : result (option (list text * list text * list text)) :=
  match r with Ok (Some m) => Ok (Some (hget_all m (L "From"), hget_all m (L "To"), hget_all m (L "Cc"))) | Ok None => Ok None | Err e => Err e end.

(** ** C50 *)
(** The reply, encrypted or not, comes from the bot's address and goes to the sender and, in
    copy, to everybody else in To and Cc. *)
Theorem C50_reply_only_when_addressed_partial : forall (E : Env) s fb body m r, reachable s -> answer s (ABot fb body m) = Ok (OOptMsg r) ->
  exists me to, bot_address m fb me /\ hget m (L "To") = Some to /\
    match r with
    | None => ~ occurs_in me to
    | Some rep => occurs_in me to /\
        exists from ps ts, hget m (L "From") = Some from /\ hget_all rep (L "From") = [me] /\ hget_all rep (L "To") = [from] /\
          hget_all rep (L "Cc") = cc_field ts /\ formatted ps ts /\
          (set_laws -> NoDup ps /\ forall rn x, In (rn, x) ps <-> In (rn, x) (addressed m) /\ x <> [] /\ x <> me)
    end.
Proof. exact @c50_reply. Qed.
Print Assumptions C50_reply_only_when_addressed_partial.

(** Missing: the bot may be mentioned in To as a part of another address, *)
Theorem C50_part_of_address_refuted : exists (E : Env) s m me rep, reached s /\ bot_address m None me /\
  answer s (ABot None [] m) = Ok (OOptMsg (Some rep)) /\ forall rn x, In (rn, x) (addressed m) -> norm x <> me.
Proof.
  exists E0, (after_all ast0 [add_a]), (mail bob (L "robot@x.org") (L "1000") (L "<1>") [(L "Delivered-To", L "bot@x.org")]), (L "bot@x.org").
  eexists. split; [apply reached_after_all, reached_init|]. split; [split; [discriminate|]; left; split; [vm_compute; reflexivity|vm_compute; discriminate]|].
  split; [vm_compute; reflexivity|]. intros rn x [H|[]]. vm_compute in H. injection H as <- <-. vm_compute. discriminate.
Qed.
Print Assumptions C50_part_of_address_refuted.
(** and a bot whose address is written with other capitalization, or that gets a mail from
    itself, is among the recipients of its reply. *)
Theorem C50_reply_to_itself_refuted : exists (E : Env) s m1 m2 me rep1 rep2, reached s /\ bot_address m1 None me /\ bot_address m2 None me /\
  answer s (ABot None [] m1) = Ok (OOptMsg (Some rep1)) /\ (exists x, hget_all rep1 (L "Cc") = [x] /\ norm x = me) /\
  answer s (ABot None [] m2) = Ok (OOptMsg (Some rep2)) /\ hget_all rep2 (L "To") = [me].
Proof.
  exists E0, (after_all ast0 [add_a]),
    (mail bob (L "bot@x.org") (L "1000") (L "<1>") [(L "Delivered-To", L "bot@x.org"); (L "Cc", L "Bot@x.org")]),
    (mail (L "bot@x.org") (L "bot@x.org") (L "1000") (L "<1>") [(L "Delivered-To", L "bot@x.org")]), (L "bot@x.org").
  do 2 eexists. split; [apply reached_after_all, reached_init|].
  split; [split; [discriminate|]; left; split; [vm_compute; reflexivity|vm_compute; discriminate]|].
  split; [split; [discriminate|]; left; split; [vm_compute; reflexivity|vm_compute; discriminate]|].
  split; [vm_compute; reflexivity|]. split; [eexists; split; [vm_compute; reflexivity|]; vm_compute; reflexivity|]. split; vm_compute; reflexivity.
Qed.
Print Assumptions C50_reply_to_itself_refuted.

Example C50_example : reachable state1 /\
  shown (bot_says (to_bot bob alice [])) = Ok (Some ([alice], [bob], [])) /\
  shown (bot_says (to_bot bob (L "Al <alice@a.org>") (L "Carol <carol@c.org>"))) = Ok (Some ([alice], [bob], [L "Carol <carol@c.org>"])) /\
  shown (bot_says (to_bot bob carol alice)) = Ok None.
Proof. split; [apply state1_reachable|]. split; [vm_compute; reflexivity|]. split; vm_compute; reflexivity. Qed.

(** ** C51 *)
Theorem C51_encrypted_if_recommended : forall (E : Env) s fb body m rep, reachable s -> answer s (ABot fb body m) = Ok (OOptMsg (Some rep)) ->
  exists me a from q ts, bot_address m fb me /\ answer s (AFind me false) = Ok (OOptText (Some a)) /\ hget m (L "From") = Some from /\
    hget_all rep (L "Cc") = cc_field ts /\
    recommended (after s (ABot fb body m)) a [from] (replying_encrypted m) q /\
    (q <> L "encrypt" -> is_encrypted rep = Ok false /\ m_body rep = mimetext body) /\
    (q = L "encrypt" -> is_encrypted rep = Ok true /\
       exists c own khs clear data enc, own_of (after s (ABot fb body m)) a = Some (c, own) /\ m_body rep = pgp_body enc /\
         Forall2 (fun x => key_in_use (after s (ABot fb body m)) a (norm x)) (from :: ts) khs /\
         m_body clear = mimetext body /\ flatten clear = Ok data /\
         gpg_encrypted (after s (AIncoming a m false false)) (after s (ABot fb body m)) khs own data enc).
Proof. exact @c51_encrypted. Qed.
Print Assumptions C51_encrypted_if_recommended.

(** The bot answers if each of the steps it takes does: in particular if encryption to the
    sender and everybody in copy succeeds whenever encryption is recommended for the sender. *)
Theorem C51_answers_partial : forall (E : Env) s fb body m me a i to from h s2, reachable s ->
  bot_address m fb me -> answer s (AFind me false) = Ok (OOptText (Some a)) ->
  answer s (AIncoming a m false false) = Ok (OIncoming (Some i)) ->
  hget m (L "To") = Some to -> occurs_in me to -> hget m (L "From") = Some from ->
  bot_decrypted a m (after s (AIncoming a m false false)) s2 ->
  (forall p, In p (set_order (addressed m)) -> exists t, formataddr p = Ok t) ->
  answer s2 (AHeader a me) = Ok (OText h) ->
  (recommended s2 a [from] (replying_encrypted m) (L "encrypt") ->
   forall mm ts, m_body mm = mimetext body -> formatted (others_of me (set_order (addressed m))) ts ->
   exists em khs, answer (drawn (after s2 (AHeader a me))) (AEncrypt a mm (from :: ts)) = Ok (OEncrypted em khs)) ->
  exists rep, answer s (ABot fb body m) = Ok (OOptMsg (Some rep)).
Proof. exact @c51_answers. Qed.
Print Assumptions C51_answers_partial.
(** Missing: with somebody in copy whose key is not known there is no answer at all, although
    the sender's key is known. *)
Theorem C51_no_answer_refuted : exists (E : Env) s a m me to v, reached s /\ bot_address m None me /\
  answer s (AFind me false) = Ok (OOptText (Some a)) /\ hget m (L "To") = Some to /\ occurs_in me to /\
  peer_of s a (from_addr m) = Some v /\ pv_keyhandle v <> [] /\ answer s (ABot None [] m) = Err ValueError.
Proof.
  exists E0, state1, (L "a"), (to_bot bob alice (L "dave@d.org")), alice, alice. eexists.
  split; [apply state1_reached|]. split; [split; [discriminate|]; left; split; [vm_compute; reflexivity|vm_compute; discriminate]|].
  split; [vm_compute; reflexivity|]. split; [vm_compute; reflexivity|]. split; [exists [], []; reflexivity|].
  split; [vm_compute; reflexivity|]. split; [vm_compute; discriminate|]. vm_compute. reflexivity.
Qed.
Print Assumptions C51_no_answer_refuted.

Example C51_example : recommended (after state1 (ABot None (L "log") (to_bot bob alice carol))) (L "a") [bob] false (L "encrypt") /\
  (exists m, bot_says (to_bot bob alice carol) = Ok (Some m) /\ is_encrypted m = Ok true) /\
  (exists m, bot_says (mail carol alice (L "1000") (L "<9>") [(L "Delivered-To", alice)]) = Ok (Some m) /\ is_encrypted m = Ok true) /\
  (exists m, bot_says (mail (L "dave@d.org") alice (L "1000") (L "<9>") [(L "Delivered-To", alice)]) = Ok (Some m) /\
     is_encrypted m = Ok false /\ m_body m = PStr (L "log")) /\
  (* the hypotheses of C51_answers_partial *)
  let m := to_bot bob alice carol in let s2 := after state1 (AIncoming (L "a") m false false) in
  (exists i, answer state1 (AIncoming (L "a") m false false) = Ok (OIncoming (Some i))) /\
  (exists h, answer s2 (AHeader (L "a") alice) = Ok (OText h)) /\
  forall mm ts, formatted (others_of alice (set_order (addressed m))) ts ->
    exists em khs, answer (drawn (after s2 (AHeader (L "a") alice))) (AEncrypt (L "a") mm (bob :: ts)) = Ok (OEncrypted em khs).
Proof.
  split; [vm_compute; reflexivity|]. split; [eexists; split; [vm_compute; reflexivity|]; vm_compute; reflexivity|]. split; [eexists; split; [vm_compute; reflexivity|]; vm_compute; reflexivity|].
  split; [eexists; split; [vm_compute; reflexivity|]; split; vm_compute; reflexivity|]. cbv zeta.
  split; [eexists; vm_compute; reflexivity|]. split; [eexists; vm_compute; reflexivity|].
  intros [h b] ts Hts. assert (ts = [carol]) as ->.
  { vm_compute in Hts. inversion Hts as [|p t ps ts' H1 H2]; subst. inversion H2; subst. vm_compute in H1. injection H1 as <-. reflexivity. }
  do 2 eexists. vm_compute. reflexivity.
Qed.

(** ** C52 *)
(** What a scan reports and does, file by file, up to the first mail that stops it. *)
Theorem C52_scan_file_by_file_partial : forall (E : Env) s reparse files, reachable s ->
  (exists sts, answer s (ACliScandir reparse files) = Ok (OScan sts) /\
     scan_files reparse (clock (a_tick s)) (ticked s) files sts (after s (ACliScandir reparse files))) \/
  (exists e f1 f f2 sts s1, files = f1 ++ f :: f2 /\ answer s (ACliScandir reparse files) = Err e /\
     scan_files reparse (clock (a_tick s)) (ticked s) f1 sts s1 /\
     scan_breaks reparse (clock (a_tick s)) s1 f e (after s (ACliScandir reparse files))).
Proof. exact @c52_scan. Qed.
Print Assumptions C52_scan_file_by_file_partial.
(** Missing: a mail that cannot be processed does stop the scan. *)
Theorem C52_bad_mail_stops_scan_refuted : exists (E : Env) s bad good e sts, reached s /\
  answer s (ACliScandir false [good]) = Ok (OScan sts) /\ peer_of (after s (ACliScandir false [good])) (L "a") (from_addr (snd good)) <> peer_of s (L "a") (from_addr (snd good)) /\
  answer s (ACliScandir false [bad; good]) = Err e /\
  peer_of (after s (ACliScandir false [bad; good])) (L "a") (from_addr (snd good)) = peer_of s (L "a") (from_addr (snd good)).
Proof.
  exists E0, state1, (5000%Z, mail bob alice (L "4000") (L "<7>") [(L "Autocrypt", L "=x"); (L "Delivered-To", alice)]),
    (5000%Z, mail carol alice (L "4000") (L "<8>") [(L "Delivered-To", alice)]).
  do 2 eexists. split; [apply state1_reached|]. split; [vm_compute; reflexivity|]. split; [vm_compute; discriminate|].
  split; vm_compute; reflexivity.
Qed.
Print Assumptions C52_bad_mail_stops_scan_refuted.

Example C52_example : answer state1 (ACliScandir false
    [((-8000000 * sec)%Z, mail carol alice (L "4000") (L "<4>") [(L "Delivered-To", alice)]);
     (0%Z, mail carol alice (L "-8000000") (L "<5>") [(L "Delivered-To", alice)]);
     (0%Z, mail carol (L "x@x.org") (L "4000") (L "<6>") [(L "Delivered-To", L "x@x.org")]);
     (0%Z, Msg [(L "From", carol); (L "To", alice); (L "Delivered-To", alice); (L "Date", L "4000")] (PStr []));
     (0%Z, mail bob alice (L "1000") (L "<1>") [(L "Delivered-To", alice)]);
     (0%Z, mail bob alice (L "4000") (L "<8>") [(L "Delivered-To", alice); (L "Autocrypt", ac_value carol [] keyB)]);
     (0%Z, mail bob alice (L "4000") (L "<9>") [(L "Delivered-To", alice)]);
     (0%Z, mail carol alice (L "4000") (L "<10>") [(L "Delivered-To", alice); (L "Autocrypt", ac_value carol [] keyB)])])
  = Ok (OScan [ScanTooOld; ScanTooOld; ScanNoAccount; ScanNoId; ScanKnown; ScanError (L "addr does not match");
               ScanError (L "no valid Autocrypt header found"); ScanFound true]).
Proof. vm_compute. reflexivity. Qed.

(** ** C53 *)
(** process-incoming reports what the state of the sender says after the mail was processed
    for the account given or found, *)
Theorem C53_reports_peer_state_partial : forall (E : Env) s name reparse nd m r, reachable s ->
  answer s (ACliIncoming name reparse nd m) = Ok (OCliIncoming r) ->
  exists a, (name = Some a \/ (name = None /\ answer s (ARoute m) = Ok (OText a))) /\
    after s (ACliIncoming name reparse nd m) = after s (AIncoming a m (negb reparse) nd) /\
    match r with
    | None => answer s (AIncoming a m (negb reparse) nd) = Ok (OIncoming None)
    | Some (b, found) => b = a /\ exists i v, answer s (AIncoming a m (negb reparse) nd) = Ok (OIncoming (Some i)) /\
        peer_of (after s (AIncoming a m (negb reparse) nd)) a (from_addr m) = Some v /\ found = up_to_date v
    end.
Proof. exact @c53_found. Qed.
Print Assumptions C53_reports_peer_state_partial.
(** which is the truth about the mail if it is newer than all others of its sender. *)
Theorem C53_truth_about_new_mail_partial : forall (E : Env) s name reparse nd m a found v d, reachable s ->
  answer s (ACliIncoming name reparse nd m) = Ok (OCliIncoming (Some (a, found))) ->
  peer_of s a (from_addr m) = Some v -> dated m d -> (pv_last_seen v < Z.min d (clock (a_tick s)))%Z ->
  (found = true <-> exists key pref, key <> [] /\ carries m key pref).
Proof. exact @c53_new_mail. Qed.
Print Assumptions C53_truth_about_new_mail_partial.
(** Missing: an older mail without any header. *)
Theorem C53_old_mail_refuted : exists (E : Env) s m, reached s /\
  answer s (ACliIncoming (Some (L "a")) false false m) = Ok (OCliIncoming (Some (L "a", true))) /\ hget_all m (L "Autocrypt") = [].
Proof.
  exists E0, state1, (mail bob alice (L "900") (L "<9>") []).
  split; [apply state1_reached|]. split; vm_compute; reflexivity.
Qed.
Print Assumptions C53_old_mail_refuted.
(** peerstate shows the recorded state; its last_ac_msg is the last mail with a header if no
    mail without one came later, *)
Theorem C53_peerstate_partial : forall (E : Env) s a x o, reachable s -> answer s (ACliPeerstate a x) = Ok (OPeerstate o) ->
  exists v, peer_of s a x = Some v /\
    (po_addr o, po_kh o, po_direct o, po_pref o, po_last_seen o, po_ac_timestamp o) =
    (pv_addr v, pv_keyhandle v, pv_direct v, pv_pref v, pv_last_seen v, pv_ac_timestamp v) /\
    (up_to_date v = true -> forall e, pv_latest_ac v = Some e -> po_last_ac_msg o = me_id e).
Proof. exact @c53_peerstate. Qed.
Print Assumptions C53_peerstate_partial.
(** but not otherwise. *)
Theorem C53_peerstate_refuted : exists (E : Env) s a x o v e, reached s /\ answer s (ACliPeerstate a x) = Ok (OPeerstate o) /\
  peer_of s a x = Some v /\ pv_latest_ac v = Some e /\ po_last_ac_msg o <> me_id e.
Proof.
  exists E0, (after state1 (in_a (mail bob alice (L "3000") (L "<9>") []))), (L "a"), bob. do 3 eexists.
  split; [apply reached_after, state1_reached|]. split; [vm_compute; reflexivity|]. split; [vm_compute; reflexivity|].
  split; [vm_compute; reflexivity|]. vm_compute. discriminate.
Qed.
Print Assumptions C53_peerstate_refuted.

Example C53_example : let new extra := mail bob alice (L "3000") (L "<9>") ((L "Delivered-To", alice) :: extra) in
  (exists v, peer_of state1 (L "a") (from_addr (new [])) = Some v /\ (pv_last_seen v < Z.min (3000 * sec) (clock (a_tick state1)))%Z) /\
  answer state1 (ACliIncoming None false false (new [])) = Ok (OCliIncoming (Some (L "a", false))) /\
  answer state1 (ACliIncoming None false false (new [(L "Autocrypt", ac_value bob [] keyC)])) = Ok (OCliIncoming (Some (L "a", true))) /\
  (exists o v, answer state1 (ACliPeerstate (L "a") bob) = Ok (OPeerstate o) /\ po_last_ac_msg o = L "<1>" /\
     peer_of state1 (L "a") bob = Some v /\ up_to_date v = true).
Proof.
  cbv zeta. split; [eexists; split; [vm_compute; reflexivity|]; vm_compute; reflexivity|]. split; [vm_compute; reflexivity|]. split; [vm_compute; reflexivity|].
  do 2 eexists. split; [vm_compute; reflexivity|]. split; [vm_compute; reflexivity|]. split; vm_compute; reflexivity.
Qed.

(** ** C54 *)
Theorem C54_symmetric : forall (E : Env) id other, ki_match id other = ki_match other id.
Proof. exact @match_sym. Qed.
Print Assumptions C54_symmetric.
(** one ends, up to case, with the other *)
Theorem C54_match_by_suffix : forall (E : Env) id other, id <> [] -> other <> [] ->
  (ki_match id other = true <-> ends_like id other \/ ends_like other id).
Proof. exact @match_general. Qed.
Print Assumptions C54_match_by_suffix.
(** for ASCII, which key ids are, lower case of the one is a suffix of lower case of the other *)
Theorem C54_match_ascii : forall (E : Env) id other, is_ascii id = true -> is_ascii other = true ->
  (ki_match id other = true <-> (id = [] /\ other = []) \/
     (id <> [] /\ other <> [] /\ (suffix_of (lower id) (lower other) \/ suffix_of (lower other) (lower id)))).
Proof. exact @match_ascii. Qed.
Print Assumptions C54_match_ascii.

Example C54_example : ki_match (L "0123ABCD") (L "abcd") = true /\ ki_match (L "abcd") (L "0123ABCD") = true /\
  ki_match (L "0123ABCD") (L "0123") = false /\ ki_match (L "0123ABCD") [] = false /\ ki_match [] [] = true /\
  ends_like (L "0123ABCD") (L "abcd").
Proof. do 5 (split; [vm_compute; reflexivity|]). exists (L "ABCD"). split; [exists (L "0123"); reflexivity|]. split; vm_compute; reflexivity. Qed.

(** ** C55 *)
(** Every gpg process is one of the listed commands (CliSpec.v): message content and keys go
    to standard input, the settings of a new key to a temporary file; arguments that are not
    fixed are key ids or addresses. *)
Theorem C55_gpg_commands : forall (E : Env) s c g, reachable s -> ran s (after s c) g -> gpg_usage g.
Proof. exact @c55_forms. Qed.
Print Assumptions C55_gpg_commands.
(** For incoming mail the only such arguments are hexadecimal key ids. *)
Theorem C55_commands_for_incoming_mail : forall (E : Env) s c g, mail_call_only c = true -> ran s (after s c) g -> mail_usage g.
Proof. exact @c55_mail. Qed.
Print Assumptions C55_commands_for_incoming_mail.
(** Encryption is a single command, with the keys of the recipients in their order. *)
Theorem C55_encrypt_command : forall (E : Env) s a m to em khs g, reachable s -> answer s (AEncrypt a m to) = Ok (OEncrypted em khs) ->
  ran s (after s (AEncrypt a m to)) g ->
  Forall2 (fun x => key_in_use s a (norm x)) to khs /\
  exists c own data, own_of s a = Some (c, own) /\ encrypt_command (gc_argv g) khs own /\ gc_in g = Some data /\ gc_tmp g = None.
Proof. exact @c55_encrypt. Qed.
Print Assumptions C55_encrypt_command.

Lemma trace_split (t t' : list gcall) : skipn (length t' - length t) t' = t -> t' = firstn (length t' - length t) t' ++ t.
Proof. intros H. rewrite <- (firstn_skipn (length t' - length t) t') at 1. rewrite H. reflexivity. Qed.
Example C55_example :
  let c := AEncrypt (L "a") (to_both []) [bob; carol] in
  (exists em, answer state1 c = Ok (OEncrypted em [skipn 3 keyB; skipn 3 keyC])) /\
  (exists g, ran state1 (after state1 c) g /\ skipn 6 (gc_argv g) =
     [L "--pinentry-mode=loopback"; L "--encrypt"; L "--always-trust"; L "-r"; skipn 3 keyB; L "-r"; skipn 3 keyC; L "--sign"; L "-u"; toy_id 0; L "--armor"]) /\
  (exists g, ran state1 (after state1 (in_a (ac_mail bob alice (L "4000") (L "<8>") [] keyC))) g /\ gc_in g = Some keyC).
Proof.
  cbv zeta. split; [eexists; vm_compute; reflexivity|].
  split.
  - exists (hd (GCall [] [] None None) (a_trace (after state1 (AEncrypt (L "a") (to_both []) [bob; carol])))).
    split; [|vm_compute; reflexivity]. eexists. split; [apply trace_split; vm_compute; reflexivity|]. vm_compute. left. reflexivity.
  - set (s := after state1 _). exists (nth 0 (a_trace s) (GCall [] [] None None)). subst s.
    split; [|vm_compute; reflexivity]. eexists. split; [apply trace_split; vm_compute; reflexivity|]. vm_compute. left. reflexivity.
Qed.

(** ** C56 *)
(** Dates with the same time zone, if mktime respects the order of the dates. *)
Theorem C56_same_zone_partial : forall (E : Env) s1 s2 a1 a2 m1 m2 g1 g2 n1 n2 i1 i2 d1 d2 c1 c2 o,
  (forall x y t u, (x <= y)%Z -> mktime x = Ok t -> mktime y = Ok u -> (t <= u)%Z) -> (forall x, mktime x <> Err TypeError) ->
  reachable s1 -> reachable s2 -> (clock (a_tick s1) <= clock (a_tick s2))%Z ->
  answer s1 (AIncoming a1 m1 g1 n1) = Ok (OIncoming (Some i1)) -> answer s2 (AIncoming a2 m2 g2 n2) = Ok (OIncoming (Some i2)) ->
  hget m1 (L "Date") = Some d1 -> hget m2 (L "Date") = Some d2 ->
  parsedate_tz d1 = Some (c1, o) -> parsedate_tz d2 = Some (c2, o) -> (c1 <= c2)%Z ->
  (in_date i1 <= in_date i2)%Z.
Proof. exact @c56_same_zone. Qed.
Print Assumptions C56_same_zone_partial.
(** Missing: different time zones, which are ignored. *)
Theorem C56_other_zone_refuted : exists (E : Env) s m1 m2 i1 i2 d1 d2 c1 c2 o1 o2, reached s /\
  answer s (AIncoming (L "a") m1 false false) = Ok (OIncoming (Some i1)) /\ answer s (AIncoming (L "a") m2 false false) = Ok (OIncoming (Some i2)) /\
  hget m1 (L "Date") = Some d1 /\ hget m2 (L "Date") = Some d2 /\
  parsedate_tz d1 = Some (c1, Some o1) /\ parsedate_tz d2 = Some (c2, Some o2) /\ (c1 - o1 < c2 - o2)%Z /\ (in_date i2 < in_date i1)%Z.
Proof.
  exists E0, state1, (mail bob alice (L "5000 4000") (L "<8>") []), (mail bob alice (L "2000 0") (L "<9>") []). do 8 eexists.
  split; [apply state1_reached|]. split; [vm_compute; reflexivity|]. split; [vm_compute; reflexivity|].
  split; [reflexivity|]. split; [reflexivity|]. split; [vm_compute; reflexivity|]. split; [vm_compute; reflexivity|]. split; vm_compute; reflexivity.
Qed.
Print Assumptions C56_other_zone_refuted.

Example C56_example :
  (forall x y t u, (x <= y)%Z -> mktime x = Ok t -> mktime y = Ok u -> (t <= u)%Z) /\ (forall x, mktime x <> Err TypeError) /\
  exists i1 i2, answer state1 (in_a (mail bob alice (L "2000 60") (L "<8>") [])) = Ok (OIncoming (Some i1)) /\
    answer state1 (in_a (mail bob alice (L "5000 60") (L "<9>") [])) = Ok (OIncoming (Some i2)) /\
    parsedate_tz (L "2000 60") = Some (2000, Some 60)%Z /\ parsedate_tz (L "5000 60") = Some (5000, Some 60)%Z.
Proof.
  split. { intros x y t u H H1 H2. injection H1 as <-. injection H2 as <-. apply Z.mul_le_mono_nonneg_r; [vm_compute; discriminate|exact H]. }
  split; [discriminate|]. do 2 eexists. split; [vm_compute; reflexivity|]. split; [vm_compute; reflexivity|]. split; vm_compute; reflexivity.
Qed.

(** ** C57 *)
Theorem C57_truncated_partial : forall s maxlen, (20 <= maxlen)%nat ->
  (length s <= maxlen -> trunc_string s maxlen = s)%nat /\
  ((maxlen < length s)%nat -> exists kept dropped n,
     s = kept ++ dropped /\ length kept = (maxlen - 20)%nat /\ written (N.of_nat (length dropped)) n /\
     trunc_string s maxlen = kept ++ L "[truncated " ++ n ++ L " chars]" /\
     (length (trunc_string s maxlen) <= maxlen <-> length dropped < 100)%nat).
Proof. exact trunc_spec. Qed.
Print Assumptions C57_truncated_partial.
(** Missing: with 100 or more characters dropped the result is longer than allowed, *)
Theorem C57_too_long_refuted : exists s maxlen, (20 <= maxlen)%nat /\ (maxlen < length (trunc_string s maxlen))%nat.
Proof. exists (repeat 65%N 140), 60%nat. split; [lia|]. vm_compute. lia. Qed.
Print Assumptions C57_too_long_refuted.
(** and with lengths below 20 the number given is wrong: that many characters are not dropped. *)
Theorem C57_short_refuted : exists s maxlen kept, (maxlen < length s)%nat /\
  trunc_string s maxlen = kept ++ L "[truncated 40 chars]" /\ (length s < length kept + 40)%nat.
Proof. exists (repeat 65%N 30), 10%nat, (repeat 65%N 20). split; [vm_compute; lia|]. split; [vm_compute; reflexivity|]. vm_compute. lia. Qed.
Print Assumptions C57_short_refuted.

Example C57_example : trunc_string (L "short") 24 = L "short" /\
  trunc_string (L "0123456789012345678901234") 24 = L "0123[truncated 21 chars]" /\ (20 <= 24)%nat.
Proof. split; [vm_compute; reflexivity|]. split; [vm_compute; reflexivity|lia]. Qed.

(** ** C58 *)
(** Whatever is logged, in whatever sections, and whatever is raised. *)
Theorem C58_sections_restore_indentation : forall tb p s, appended s (fst (run_script tb p s)).
Proof. exact run_script_appended. Qed.
Print Assumptions C58_sections_restore_indentation.
(** and only sections that ask for it let exceptions out *)
Theorem C58_exceptions_contained : forall tb p, safe p = true -> forall s, snd (run_script tb p s) = Ok tt.
Proof. exact run_script_safe. Qed.
Print Assumptions C58_exceptions_contained.

Example C58_example :
  let p := Section (L "one") false (Section (L "two") true (Line (L "x") (Fail ValueError)) (Line (L "never") Done)) (Line (L "y") Done) in
  safe p = true /\ sl_indent (fst (run_script (fun _ => L "tb") p (SLog [] 1))) = 1%nat /\
  sl_lines (fst (run_script (fun _ => L "tb") p (SLog [] 1))) =
    [L "  one"; L "  "; L "    "; L "    two"; L "    "; L "      x"; L "  tb"; L "  "; L "  y"].
Proof. cbv zeta. split; [reflexivity|]. split; vm_compute; reflexivity. Qed.

(** ** C59 *)
Theorem C59_resent_mail_untouched_partial : forall (E : Env) s m r, hget m (L "Resent-From") = Some r -> r <> [] ->
  after s (ACliOutgoing m) = after s (AFind (norm r) false) /\
  (forall a, answer s (AFind (norm r) false) = Ok (OOptText (Some a)) -> answer s (ACliOutgoing m) = Ok (OMsg m)) /\
  (answer s (AFind (norm r) false) = Ok (OOptText None) -> answer s (ACliOutgoing m) = Err ClickException) /\
  (forall e, answer s (AFind (norm r) false) = Err e -> answer s (ACliOutgoing m) = Err e) /\
  ((exists a, answer s (AFind (norm r) false) = Ok (OOptText a)) \/ exists e, answer s (AFind (norm r) false) = Err e).
Proof. exact @c59_resent. Qed.
Print Assumptions C59_resent_mail_untouched_partial.
(** Missing: a Resent-From header without value counts as none. *)
Theorem C59_empty_value_refuted : exists (E : Env) s m m', reached s /\ hget m (L "Resent-From") = Some [] /\
  answer s (ACliOutgoing m) = Ok (OMsg m') /\ m' <> m.
Proof.
  exists E0, state1, (mail alice (L "dave@d.org") (L "3000") (L "<3>") [(L "Resent-From", [])]). eexists.
  split; [apply state1_reached|]. split; [reflexivity|]. split; [vm_compute; reflexivity|]. vm_compute. discriminate.
Qed.
Print Assumptions C59_empty_value_refuted.

Example C59_example : let m x := mail carol bob (L "3000") (L "<3>") [(L "Resent-From", x); (L "ENCRYPT", L "yes")] in
  answer state1 (ACliOutgoing (m (L "Al <alice@a.org>"))) = Ok (OMsg (m (L "Al <alice@a.org>"))) /\
  answer state1 (ACliOutgoing (m carol)) = Err ClickException.
Proof. cbv zeta. split; vm_compute; reflexivity. Qed.

(** ** C60 *)
(** For mails whose parts can be shown and whose content types, file names and subjects have
    no line breaks. *)
Theorem C60_one_line_per_part_partial : forall (E : Env) (D : display) m,
  Forall (fun p => showable D (snd p) /\ flat D (snd p)) (parts_of 0 m) ->
  exists out, render_mime_structure D m = Ok out /\ Forall2 tree_line (parts_of 0 m) (split_on 10 out).
Proof. exact @render_tree. Qed.
Print Assumptions C60_one_line_per_part_partial.
Definition toy_display : display := Display (fun _ => None) (fun _ => None) (fun _ => None) (fun _ => Ok 42%nat).
(** Missing: a subject folded over two lines is two lines. *)
Theorem C60_folded_subject_refuted : exists (E : Env) D m out, Forall (fun p => showable D (snd p)) (parts_of 0 m) /\
  render_mime_structure D m = Ok out /\ length (split_on 10 out) <> length (parts_of 0 m).
Proof.
  exists E0, toy_display, (mail bob alice (L "1") (L "<1>") [(L "Subject", L "a" ++ [10%N] ++ L " b")]). eexists.
  split; [repeat constructor|]. split; [vm_compute; reflexivity|]. vm_compute. discriminate.
Qed.
Print Assumptions C60_folded_subject_refuted.

Definition tree_mail : msg :=
  Msg [(L "Content-Type", L "multipart/mixed"); (L "Subject", L "hi")]
    (PParts [Msg [(L "Content-Type", L "multipart/alternative")] (PParts [Msg [] (PStr (L "abc")); Msg [] (PStr [])]); Msg [] (PStr (L "x"))]).
Example C60_example :
  Forall (fun p => showable toy_display (snd p) /\ flat toy_display (snd p)) (parts_of 0 tree_mail) /\
  match render_mime_structure toy_display tree_mail with Ok out => length (split_on 10 out) | Err _ => 0%nat end = 5%nat.
Proof.
  split; [|vm_compute; reflexivity].
  assert (H : forall t, forallb (fun c => negb (N.eqb c 10)) t = true -> one_line t).
  { intros t Ht Hi. rewrite forallb_forall in Ht. specialize (Ht _ Hi). discriminate. }
  repeat constructor; try discriminate; try (eexists; reflexivity); try (apply H; vm_compute; reflexivity);
    intros v Hv; vm_compute in Hv; try discriminate; injection Hv as <-; apply H; reflexivity.
Qed.
