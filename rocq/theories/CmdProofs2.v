(** Proofs about what the commands print (C61, C62, C63). *)
From Verif Require Import Base PyStr Utf8 Base64 Env Prog Chain Gpg Mime States Recommendation Account Cmdline Bot Fs Api Steps StepFacts Exec ApiScope
  Spec Obs PeerSpec Incoming PeerFacts PeerProofs RecSpec RecProofs HeaderProofs OutSpec OutProofs OutProofs2 Quiet AcctSpec AcctFacts AcctProofs AcctProofs2 ImportProofs CliSpec CliProofs CliProofs2 Commands CmdSpec CmdProofs.

Section CmdProofs2.
Context {E : Env} {Sh : Shell}.

Lemma outcome_out p s r : snd (arun (out p) s) = Ok r -> exists l, snd (arun p s) = Ok l /\ r = Printed l 0 None.
Proof. rewrite arun_out. cbn [snd]. destruct (snd (arun p s)) as [l|]; [|discriminate]. intros [= <-]. eauto. Qed.
Lemma outcome_out_iff p s l : snd (arun (out p) s) = Ok (Printed l 0 None) <-> snd (arun p s) = Ok l.
Proof. rewrite arun_out. cbn [snd]. destruct (snd (arun p s)) as [l'|]; [|split; discriminate]. split; intros [= <-]; reflexivity. Qed.

(** ** C61 *)
Lemma c61_find s adr lines : reachable s -> prints s (CmdFind adr) lines <-> exists a, first_of s adr a /\ lines = [a].
Proof.
  intros Hr. unfold prints, outcome_of. cbn [command_prog]. rewrite outcome_out_iff, arun_bind. split.
  - destruct (arun (get_account_from_emailadr adr true) s) as [s1 [[a|]|e]] eqn:Ef; try discriminate.
    cbn [arun run snd]. intros [= <-]. exists a. split; [|reflexivity]. apply (c43_found s adr true a Hr). unfold answer. cbn [exec]. rewrite arun_bind, Ef. reflexivity.
  - intros [a [Hf ->]]. rewrite (find_found s adr true a (reachable_WF s Hr) Hf). reflexivity.
Qed.
Lemma c61_make_header s val adr p : reachable s -> outcome_of s (CmdMakeHeader val adr) = Ok p ->
  exists a c kh key v, first_of s adr a /\ left_by s (CmdMakeHeader val adr) = after s (AHeader a adr) /\
    own_of s a = Some (c, kh) /\ own_public_key s (after s (AHeader a adr)) kh key /\
    p = Printed [if val then v else L "Autocrypt: " ++ v] 0 None /\
    (is_bytes key = true -> key <> [] -> ~ In 59%N (norm adr) -> norm (strip (norm adr)) = norm adr ->
     key_header v (norm adr) key (cf_pref c) /\
     forall m, get_content_type m <> L "multipart/report" -> (length (getaddresses (hget_all m (L "From"))) <= 1)%nat ->
       sender_of m = norm adr -> hget_all m (L "Autocrypt") = [v] -> carries m key (cf_pref c)).
Proof.
  intros Hr H. pose proof (reachable_WF s Hr) as Hw. unfold left_by, outcome_of in *. cbn [command_prog] in *.
  apply outcome_out in H as [l [H ->]]. rewrite arun_out. cbn [fst]. unfold cli_make_header in *. rewrite !arun_bind in *.
  destruct (arun (get_account_from_emailadr adr true) s) as [s1 [[a|]|e]] eqn:Ef; try discriminate.
  assert (Hf : first_of s adr a) by (apply (c43_found s adr true a Hr); unfold answer; cbn [exec]; rewrite arun_bind, Ef; reflexivity).
  rewrite (find_found s adr true a Hw Hf) in Ef. injection Ef as <-.
  pose proof Hf as [_ [[c [kh [Ho _]]] _]]. pose proof (own_exists s a c kh Hw Ho) as He.
  destruct (arun (make_ac_header a adr) s) as [s2 [v|e]] eqn:Em; [|discriminate]. cbn [arun run snd] in H. injection H as <-.
  assert (Hs : after s (AHeader a adr) = s2).
  { unfold after. cbn [exec]. rewrite arun_with_account by auto. rewrite arun_bind, Em. reflexivity. }
  destruct (make_ac_header_ok _ _ _ _ _ Em) as [_ [_ [c' [k [key [Hc [Hk [Hpub Hv]]]]]]]].
  apply wf_config in Ho as [Hc' [k' [Hk' <-]]]; [|exact Hw]. rewrite Hc in Hc'. injection Hc' as <-. rewrite Hk in Hk'. injection Hk' as <-.
  exists a, c', (kg_kh k), key, v. rewrite Hs. split; [exact Hf|]. split; [reflexivity|].
  split; [rewrite own_of_spec, Hc, Hk by exact Hw; reflexivity|]. split; [exact Hpub|]. split; [reflexivity|].
  intros K1 K2 K3 K4.
  assert (Hpref : cf_pref c' = L "nopreference" \/ cf_pref c' = L "mutual").
  { pose proof (wf_pref s a c' Hw Hc) as Hp. unfold valid_pref in Hp. apply mem_text_In in Hp. destruct Hp as [<-|[<-|[]]]; auto. }
  destruct (c24 adr key (cf_pref c') K1 K2 K3 K4 Hpref) as [v' [V1 V2]]. rewrite Hv in V1. injection V1 as <-.
  assert (Hkey : key_header v (norm adr) key (cf_pref c')) by (exists []; exact V2).
  split; [exact Hkey|]. intros m M1 M2 M3 M4. split; [exact M1|]. split; [exact M2|].
  exists [], v, []. rewrite M3. split; [exact M4|]. split; [exact Hkey|]. intros w [].
Qed.
Lemma c61_recommend s n adrs lines : reachable s ->
  prints s (CmdRecommend n adrs) lines <-> exists r, recommended s n adrs false r /\ lines = [r].
Proof.
  intros Hr. unfold prints, outcome_of, recommended, answer. cbn [command_prog exec]. rewrite outcome_out_iff.
  pose proof (reachable_WF s Hr) as Hw. destruct (exists_acct_dec s n) as [He|He].
  - assert (Ha : has_account s n) by (apply has_account_exists; assumption).
    destruct (c22 s n adrs false Hr Ha) as [_ [r [k [Hk _]]]]. unfold recommended, answer in Hk. cbn [exec] in Hk.
    unfold cli_recommend. rewrite with_account_bind in *. rewrite !arun_bind. destruct (arun (get_account n true) s) as [s1 [a|e]]; [|discriminate].
    rewrite arun_bind in Hk |- *. destruct (arun (recommend a (map Some adrs) false None) s1) as [s2 [q|e]]; [|discriminate].
    cbn [arun run snd] in Hk |- *. injection Hk as ->. split; [intros [= <-]; eauto|]. intros [r' [[= <-] ->]]. reflexivity.
  - unfold cli_recommend. rewrite !arun_bind, arun_with_account_none, arun_get_account_none by exact He. cbn [snd]. split; [discriminate|]. intros [r [H _]]. discriminate.
Qed.
Lemma c61_export s n kh lines : (prints s (CmdExport n kh) lines <-> exists b, answer s (AExportPub n kh) = Ok (OBytes b) /\ lines = [b]) /\
  (prints s (CmdExportSecret n) lines <-> exists b, answer s (AExportSec n) = Ok (OBytes b) /\ lines = [b]).
Proof.
  unfold prints, outcome_of, answer. cbn [command_prog exec]. rewrite !outcome_out_iff, !arun_bind, !with_account_bind.
  destruct (arun (get_account n true) s) as [s1 [a|e]]; [|split; (split; [discriminate|intros [b [Hb _]]; discriminate])]. rewrite !arun_bind.
  split.
  - destruct (arun (export_public_key a kh) s1) as [s2 [b|e]]; cbn [arun run snd]; [|split; [discriminate|intros [b [Hb _]]; discriminate]].
    split; [intros [= <-]; eauto|]. intros [b' [[= <-] ->]]. reflexivity.
  - destruct (arun (export_secret_key a) s1) as [s2 [b|e]]; cbn [arun run snd]; [|split; [discriminate|intros [b [Hb _]]; discriminate]].
    split; [intros [= <-]; eauto|]. intros [b' [[= <-] ->]]. reflexivity.
Qed.
Lemma c61_outgoing s m lines : prints s (CmdOutgoing m) lines <->
  exists m' t, answer s (ACliOutgoing m) = Ok (OMsg m') /\ as_string m' = Ok t /\ lines = [t].
Proof.
  unfold prints, outcome_of, answer. cbn [command_prog exec]. rewrite !outcome_out_iff, !arun_bind.
  destruct (arun (cli_process_outgoing m) s) as [s1 [m'|e]]; cbn [arun run snd]; [|split; [discriminate|intros [b [t [Hb _]]]; discriminate]].
  fold (@arun E). rewrite arun_bind_lift. destruct (as_string m') as [t|e] eqn:Es; cbn [arun run snd].
  - split; [intros [= <-]; eauto|]. intros [m2 [t2 [[= <-] [H2 ->]]]]. rewrite Es in H2. injection H2 as ->. reflexivity.
  - split; [discriminate|]. intros [m2 [t2 [[= <-] [H2 _]]]]. congruence.
Qed.
Lemma c61_import s n pref email stdin lines :
  (is_ascii stdin = true ->
   (prints s (CmdImport n pref email stdin) lines <-> exists r, answer s (AImport n email stdin pref) = Ok (OImport r) /\
      lines = (L "imported key '" ++ ir_kh r ++ L "' with prefer-encrypt=" ++ ir_pref r ++ L " for addresses") :: map (fun x => L " " ++ x) (ir_addrs r))) /\
  (is_ascii stdin = false -> reachable s -> has_account s n ->
   outcome_of s (CmdImport n pref email stdin) = Err UnicodeError /\ left_by s (CmdImport n pref email stdin) = s).
Proof.
  unfold prints, outcome_of, left_by, answer. cbn [command_prog exec]. split.
  - intros Ha. rewrite !outcome_out_iff, with_account_bind. unfold cmd_import. rewrite !arun_bind, Ha.
    destruct (arun (get_account n true) s) as [s1 [a|e]]; [|split; [discriminate|intros [b [Hb _]]; discriminate]].
    rewrite !arun_bind. destruct (arun (import_keydata_as_autocrypt a email stdin pref) s1) as [s2 [r|e]]; cbn [arun run snd]; [|split; [discriminate|intros [b [Hb _]]; discriminate]].
    unfold repr. rewrite <- !app_assoc. split; [intros [= <-]; eexists; split; [reflexivity|reflexivity]|]. intros [r' [[= <-] ->]]. reflexivity.
  - intros Ha Hr He. pose proof (reachable_WF s Hr) as Hw. apply has_account_exists in He; [|exact Hw].
    rewrite !arun_out. unfold cmd_import. rewrite !arun_bind, arun_get_account, Ha by auto. split; reflexivity.
Qed.

Lemma pad_column t n : column t n (pad n t).
Proof. unfold column, pad. exists (n - length t)%nat. split; [reflexivity|]. rewrite app_length, repeat_length. lia. Qed.
Lemma kecho_row name v : row (L "  ") (name ++ L ":") v (kecho name v).
Proof. unfold row, kecho. eexists. split; [apply pad_column|]. reflexivity. Qed.
Lemma field_row name v : row [] name v (field16 name v).
Proof. unfold row, field16. eexists. split; [apply pad_column|]. reflexivity. Qed.

Lemma c61_peerstate s n adr p : reachable s -> outcome_of s (CmdPeerstate n adr) = Ok p ->
  exists v o l1 l2 l3 l4 l5 l6 l7 l8, peer_of s n adr = Some v /\ answer s (ACliPeerstate n adr) = Ok (OPeerstate o) /\
    p = Printed [l1; l2; l3; l4; l5; l6; l7; l8] 0 None /\ left_by s (CmdPeerstate n adr) = s /\
    row [] (L "peer address") (pv_addr v) l1 /\ row [] (L "keyhandle") (pv_keyhandle v) l2 /\
    row [] (L "direct_key") (if pv_direct v then L "True" else L "False") l3 /\ row [] (L "prefer_encrypt") (pv_pref v) l4 /\
    row [] (L "last_seen") (if Z.eqb (pv_last_seen v) 0 then [] else isoformat (pv_last_seen v)) l5 /\ row [] (L "last_msg") (po_last_msg o) l6 /\
    row [] (L "ac timestamp") (if Z.eqb (pv_ac_timestamp v) 0 then [] else isoformat (pv_ac_timestamp v)) l7 /\ row [] (L "last_ac_msg") (po_last_ac_msg o) l8.
Proof.
  intros Hr H. pose proof (reachable_WF s Hr) as Hw. pose proof (proj1 (c61_calls s (CmdPeerstate n adr) _ eq_refl)) as Hl. unfold outcome_of in H. cbn [command_prog] in H.
  apply outcome_out in H as [l [H ->]]. rewrite arun_bind in H. unfold after in Hl. cbn [exec] in Hl. rewrite arun_bind in Hl.
  destruct (exists_acct_dec s n) as [He|He].
  2: { unfold cli_peerstate in H. rewrite !arun_bind, arun_get_account_none in H by exact He. discriminate. }
  assert (Hrun : arun (cli_peerstate n adr) s = (s, Ok (PeerstateOut (peer_addr (peerstate_chain n adr)) (public_keyhandle (alog s (peerstate_chain n adr)))
    (has_direct_key (alog s (peerstate_chain n adr))) (peer_prefer_encrypt (alog s (peerstate_chain n adr))) (last_seen (alog s (peerstate_chain n adr)))
    (latest_msg_id (alog s (peerstate_chain n adr))) (autocrypt_timestamp (alog s (peerstate_chain n adr))) (latest_msg_id (alog s (peerstate_chain n adr)))))).
  { unfold cli_peerstate. rewrite arun_bind, arun_get_account by auto. reflexivity. }
  rewrite Hrun in H, Hl. cbn [arun run snd fst] in H, Hl. injection H as <-.
  do 10 eexists. split; [apply peer_view_log; assumption|].
  split; [unfold answer; cbn [exec]; rewrite arun_bind, Hrun; reflexivity|]. split; [reflexivity|]. split; [exact Hl|].
  unfold show_time. repeat split; apply field_row.
Qed.
Lemma c61_incoming s name reparse nd m p : reachable s -> outcome_of s (CmdIncoming name reparse nd m) = Ok p ->
  exists r, answer s (ACliIncoming name reparse nd m) = Ok (OCliIncoming r) /\
  match r with
  | None => exists id, p = Printed [L "message with " ++ id ++ L " already known, skipping processing"] 0 None /\
              forall i, hget m (L "Message-Id") = Some i -> id = i
  | Some (a, false) => p = Printed [L "processed mail for account '" ++ a ++ L "', no Autocrypt header found"] 0 None
  | Some (a, true) => exists v, peer_of (left_by s (CmdIncoming name reparse nd m)) a (from_addr m) = Some v /\
      p = Printed [L "processed mail for account '" ++ a ++ L "', found: PeerState addr=" ++ pv_addr v ++ L " key=" ++ pv_keyhandle v] 0 None
  end.
Proof.
  intros Hr H. pose proof (reachable_WF s Hr) as Hw. unfold outcome_of in H. cbn [command_prog] in H.
  rewrite (proj1 (c61_calls s (CmdIncoming name reparse nd m) _ eq_refl)).
  destruct (arun (out (cmd_process_incoming name reparse nd m)) s) as [s' r'] eqn:Er. cbn [snd] in H. subst r'.
  unfold out in Er. apply arun_bind_ok in Er as [s1 [l [H1 H2]]]. apply arun_ret_ok in H2 as [-> ->].
  unfold cmd_process_incoming in H1. apply arun_bind_ok in H1 as [s2 [a [H1 H2]]].
  assert (Ha : s2 = s /\ exists_acct s a).
  { destruct name as [n|]; [apply get_account_ok in H1 as [-> [-> He]]; auto|apply matching_ok in H1; auto]. }
  destruct Ha as [-> He].
  apply arun_bind_ok in H2 as [s2 [oi [H2 H3]]].
  destruct (answer_incoming s a m (negb reparse) nd Hw He) as [A1 A2]. rewrite H2 in A1, A2. cbn [fst snd] in A1, A2.
  assert (Hi := incoming_some s a m (negb reparse) nd). rewrite H2 in Hi. cbn [snd] in Hi.
  unfold answer, after. cbn [exec]. rewrite !arun_bind. unfold cli_process_incoming. rewrite !arun_bind, H1, !arun_bind, H2.
  destruct oi as [i|].
  - destruct (Hi i Hw He eq_refl) as [Hi1 Hi2]. rewrite Hi1, Hi2 in H3 |- *.
    apply arun_bind_ok in H3 as [s3 [l3 [H3 H4]]]. apply arun_ret_ok in H4 as [-> ->].
    apply arun_read_ok in H3 as [-> ->].
    rewrite !arun_bind. unfold perform, arun. cbn [run astep fst snd].
    eexists. split; [reflexivity|]. cbv beta iota.
    assert (Hw2 : WF s2) by (rewrite <- A1; apply WF_after; exact Hw).
    assert (He2 : exists_acct s2 a) by (rewrite <- A1; apply incoming_exists; auto).
    destruct (Z.eqb _ _); [|rewrite <- ?app_assoc; reflexivity].
    eexists. split; [apply peer_view_log; assumption|]. rewrite <- ?app_assoc. reflexivity.
  - apply arun_ret_ok in H3 as [-> ->]. eexists. split; [reflexivity|]. cbv beta iota.
    exists (match hget m (L "Message-Id") with Some i => i | None => L "None" end). split; [reflexivity|]. intros i Hid. rewrite Hid. reflexivity.
Qed.

(** ** C62 *)
Lemma sendmail_path_program : sendmail_program sendmail_path.
Proof.
  unfold sendmail_program, sendmail_path. destruct (find_executable (L "sendmail")) as [q|]; [|reflexivity].
  destruct q; [right; auto|left; split; [discriminate|reflexivity]].
Qed.
Lemma c62_sent s args m p : outcome_of s (CmdSendmail args m) = Ok p ->
  args <> [] /\ exists m' t i path, answer s (ACliOutgoing m) = Ok (OMsg m') /\ as_string m' = Ok t /\ utf8 i = Some t /\
    sendmail_program path /\ pr_started p = Some (path :: args, i) /\ popen (path :: args) i = Ok (pr_exit p) /\
    (pr_exit p = 0%Z -> pr_lines p = []) /\
    (pr_exit p <> 0%Z -> exists n, written (Z.abs_N (pr_exit p)) n /\
      pr_lines p = [L "sendmail return " ++ (if Z.ltb (pr_exit p) 0 then L "-" else []) ++ n ++ L " exitcode, path: " ++ path]).
Proof.
  unfold outcome_of, answer. cbn [command_prog exec]. unfold cmd_sendmail. rewrite !arun_bind. destruct args as [|arg args]; [discriminate|].
  cbn [nonempty assert_]. rewrite arun_ret, arun_bind. destruct (arun (cli_process_outgoing m) s) as [s1 [m'|e]]; [|discriminate].
  rewrite arun_bind_lift. destruct (as_string m') as [t|e] eqn:Et; [|discriminate].
  rewrite arun_bind_lift. unfold encode_utf8; destruct (to_utf8 t) as [i|] eqn:Ei; [|discriminate].
  rewrite arun_bind_lift. destruct (popen (sendmail_path :: arg :: args) i) as [r|e] eqn:Ep; [|discriminate].
  intros H. split; [discriminate|]. exists m', t, i, sendmail_path. split; [reflexivity|]. split; [exact Et|]. split; [exact (utf8_roundtrip t i Ei)|].
  split; [apply sendmail_path_program|]. destruct (Z.eqb_spec r 0) as [->|Hr]; cbn [arun run snd] in H; injection H as <-; cbn [pr_started pr_exit pr_lines].
  - split; [reflexivity|]. split; [exact Ep|]. tauto.
  - split; [reflexivity|]. split; [exact Ep|]. split; [tauto|]. intros _. exists (dec_N (Z.abs_N r)). split; [apply dec_N_written|reflexivity].
Qed.
Lemma cli_outgoing_inv s m m' : reachable s -> hget m (L "Resent-From") = None \/ hget m (L "Resent-From") = Some [] ->
  answer s (ACliOutgoing m) = Ok (OMsg m') -> exists a o, first_of s (from_addr m) a /\
    answer s (AOutgoing a m) = Ok (OOutgoing o) /\ after s (ACliOutgoing m) = after s (AOutgoing a m) /\ m' = out_msg o.
Proof.
  intros Hr Hres. pose proof (reachable_WF s Hr) as Hw.
  assert (Hp : cli_process_outgoing m = (r <- get_account_from_emailadr (from_addr m) false ;;
            match r with None => Raise ClickException | Some a => o <- process_outgoing a m ;; Ret (out_msg o) end))
    by (unfold cli_process_outgoing; destruct Hres as [-> | ->]; reflexivity).
  unfold answer, after. cbn [exec]. rewrite Hp, !arun_bind.
  destruct (arun (get_account_from_emailadr (from_addr m) false) s) as [s1 [[a|]|e]] eqn:Ef; try discriminate.
  assert (Hf : first_of s (from_addr m) a) by (apply (c43_found s (from_addr m) false a Hr); unfold answer; cbn [exec]; rewrite arun_bind, Ef; reflexivity).
  rewrite (find_found s (from_addr m) false a Hw Hf) in Ef. injection Ef as <-.
  pose proof Hf as [_ [[c [kh [Ho _]]] _]]. pose proof (own_exists s a c kh Hw Ho) as He.
  rewrite !arun_bind. destruct (arun (process_outgoing a m) s) as [s2 [o|e]] eqn:Eo; [|discriminate]. cbn [arun run fst snd]. intros [= <-].
  exists a, o. split; [exact Hf|]. fold (@arun E). rewrite arun_with_account, arun_bind, Eo by auto. auto.
Qed.
Lemma c62_never_clear s args m p : reachable s -> hget m (L "Resent-From") = None \/ hget m (L "Resent-From") = Some [] ->
  outcome_of s (CmdSendmail args m) = Ok p ->
  exists a o t i path, first_of s (from_addr m) a /\ answer s (AOutgoing a m) = Ok (OOutgoing o) /\
    as_string (out_msg o) = Ok t /\ utf8 i = Some t /\ pr_started p = Some (path :: args, i) /\
    ~ has_header (out_msg o) (L "ENCRYPT") /\
    (control m = Some (L "yes") -> is_encrypted (out_msg o) = Ok true /\
      (is_encrypted m = Ok true \/ exists khs own clear data enc, m_body (out_msg o) = pgp_body enc /\ m_body clear = m_body m /\ flatten clear = Ok data /\
         gpg_encrypted s (left_by s (CmdSendmail args m)) khs own data enc)).
Proof.
  intros Hr Hres H. apply c62_sent in H as [Hargs [m' [t [i [path [H1 [H2 [H3 [H4 [H5 _]]]]]]]]]].
  destruct (cli_outgoing_inv s m m' Hr Hres H1) as [a [o [A1 [A2 [A3 ->]]]]].
  exists a, o, t, i, path. split; [exact A1|]. split; [exact A2|]. split; [exact H2|]. split; [exact H3|]. split; [exact H5|].
  split; [eapply c31; eauto|]. intros Hc. destruct (c29 s a m o Hr A2 (or_introl Hc)) as [E1 E2]. split; [exact E1|].
  destruct E2 as [[E2 _]|[khs [own [clear [data [enc [E2 [E3 [E4 E5]]]]]]]]]; [left; exact E2|]. right. exists khs, own, clear, data, enc.
  assert (Hl : left_by s (CmdSendmail args m) = after s (AOutgoing a m)).
  { rewrite <- A3. apply c61_calls. destruct args; [congruence|reflexivity]. }
  rewrite Hl. auto.
Qed.
Lemma c62_no_arguments s m : outcome_of s (CmdSendmail [] m) = Err AssertionError /\ left_by s (CmdSendmail [] m) = s.
Proof. split; reflexivity. Qed.

(** ** C63 *)
Lemma WF_logs s s' : a_logs s' = a_logs s -> WF s -> WF s'.
Proof.
  intros Hl Hw. destruct Hw as [H1 H2 H3]. split.
  - rewrite Hl. exact H1.
  - rewrite Hl. exact H2.
  - unfold version_of, alog in *. rewrite Hl. exact H3.
Qed.
Lemma infos_uid u rs : In u (concat (map ki_uids (infos_of rs))) ->
  In (RUid u) rs \/ (u <> [] /\ exists i, In (RPub i u) rs \/ In (RSub i u) rs).
Proof.
  assert (Hg : forall x, In u (given x) -> u = x /\ u <> []).
  { intros [|c x]; [intros []|]. intros [<-|[]]. split; [reflexivity|discriminate]. }
  assert (Hu : forall rs, In u (until_pub rs) -> In (RUid u) rs).
  { induction rs0 as [|[i x|i x|x|] rs0 IH]; cbn [until_pub]; intros H; try destruct H as [H|H]; try subst; cbn; auto. destruct H. }
  induction rs as [|[i x|i x|x|] rs IH]; cbn [infos_of map concat ki_uids]; intros H.
  - destruct H.
  - apply in_app_or in H as [H|H].
    + apply in_app_or in H as [H|H].
      * apply Hg in H as [-> Hn]. right. split; [exact Hn|]. exists i. left. left. reflexivity.
      * left. right. apply Hu, H.
    + destruct (IH H) as [H'|[Hn [j [H'|H']]]]; [left; right; exact H'|right; split; [exact Hn|]; exists j; left; right; exact H'|right; split; [exact Hn|]; exists j; right; right; exact H'].
  - apply in_app_or in H as [H|H].
    + apply Hg in H as [-> Hn]. right. split; [exact Hn|]. exists i. right. left. reflexivity.
    + destruct (IH H) as [H'|[Hn [j [H'|H']]]]; [left; right; exact H'|right; split; [exact Hn|]; exists j; left; right; exact H'|right; split; [exact Hn|]; exists j; right; right; exact H'].
  - destruct (IH H) as [H'|[Hn [j [H'|H']]]]; [left; right; exact H'|right; split; [exact Hn|]; exists j; left; right; exact H'|right; split; [exact Hn|]; exists j; right; right; exact H'].
  - destruct (IH H) as [H'|[Hn [j [H'|H']]]]; [left; right; exact H'|right; split; [exact Hn|]; exists j; left; right; exact H'|right; split; [exact Hn|]; exists j; right; right; exact H'].
Qed.
Lemma list_uids g kh s s' infos : arun (list_public_keyinfos g kh) s = (s', Ok infos) ->
  only_gpg s s' /\ uids_listed s s' kh (concat (map ki_uids infos)).
Proof.
  unfold list_public_keyinfos, parse_list. intros H. apply arun_bind_ok in H as [s1 [[out err] [H1 H2]]].
  apply gpg_outerr_ok in H1 as [O1 [O2 [r [_ O3]]]]. apply arun_lift_ok in H2 as [-> Hp]. split; [exact O1|].
  eexists _, _, r, out. split; [eexists; split; [exact O2|left; reflexivity]|].
  split; [unfold full_argv; exists ([gp_path g; L "--batch"] ++ homedirflags g ++ [L "--skip-verify"]); rewrite <- !app_assoc; reflexivity|].
  split; [exact O3|]. intros u Hu. apply parse_lines_infos in Hp. subst infos.
  rewrite map_app, concat_app in Hu. apply in_app_or in Hu as [Hu|Hu].
  { exfalso. assert (Hx : forall us, extend [] us = []) by (induction us; [reflexivity|assumption]). rewrite Hx in Hu. destruct Hu. }
  apply infos_uid in Hu as [Hu|[Hn [i Hu]]].
  - apply in_map_iff in Hu as [line [Hl Hi]]. exists line. auto.
  - destruct Hu as [Hu|Hu]; apply in_map_iff in Hu as [line [Hl Hi]]; exists line; (split; [exact Hi|right; split; [exact Hn|]; exists i; auto]).
Qed.
Lemma uids_later s s1 s2 kh us : uids_listed s s1 kh us -> only_gpg s1 s2 -> uids_listed s s2 kh us.
Proof.
  intros [home [argv [r [out0 [H1 H2]]]]] Hg. exists home, argv, r, out0. split; [|exact H2].
  eapply ran_here; [apply only_gpg_refl|exact H1|exact Hg].
Qed.
Lemma status_peers s a xs : WF s -> exists_acct s a -> exists ps vs, arun (mapM (status_peer_line a) xs) s = (s, Ok ps) /\
  Forall2 (fun x v => peer_of s a x = Some v) xs vs /\ map peer_line (concat ps) = concat (map peer_text_of vs).
Proof.
  intros Hw He. induction xs as [|x xs IH].
  - exists [], []. split; [reflexivity|]. split; [constructor|reflexivity].
  - destruct IH as [ps [vs [I1 [I2 I3]]]]. cbn [mapM].
    set (chain := peerstate_chain a x). set (l := alog s chain).
    set (p := if Z.eqb (last_seen l) (autocrypt_timestamp l) then [StatusPeer (peer_addr chain) (public_keyhandle l) (last_seen l) true]
              else if nonempty (public_keyhandle l) then [StatusPeer (peer_addr chain) (public_keyhandle l) (last_seen l) false] else []).
    assert (Hx : arun (status_peer_line a x) s = (s, Ok p)).
    { unfold status_peer_line, p. cbv zeta. fold chain. rewrite arun_bind. unfold perform, arun. cbn [run astep]. fold l.
      destruct (Z.eqb _ _); [reflexivity|]. destruct (nonempty _); reflexivity. }
    exists (p :: ps), (view_of chain l :: vs). rewrite arun_bind, Hx, arun_bind, I1. split; [reflexivity|].
    split; [constructor; [apply peer_view_log; assumption|exact I2]|].
    cbn [concat map]. rewrite map_app, I3. f_equal. unfold p, peer_text_of, up_to_date, peer_text, peer_line. cbn [view_of pv_last_seen pv_ac_timestamp pv_keyhandle pv_addr].
    destruct (Z.eqb _ _); [reflexivity|]. destruct (public_keyhandle l); reflexivity.
Qed.
Lemma existsb_slash t : existsb (N.eqb 47) t = true <-> In 47%N t.
Proof. rewrite existsb_exists. split; [intros [x [H1 H2]]; apply N.eqb_eq in H2; subst; exact H1|intros H; exists 47%N; split; [exact H|reflexivity]]. Qed.
Lemma status_account_text s s' a v lines : WF s -> exists_acct s a -> arun (cmd_status_account a v) s = (s', Ok lines) ->
  only_gpg s s' /\ account_text s s' a v lines.
Proof.
  intros Hw He H. rewrite status_account_run in H.
  destruct (arun (cli_status_account a v) s) as [s1 [st|e]] eqn:Es; [|discriminate]. cbn [fst snd rmap] in H. injection H as <- <-.
  unfold cli_status_account in Es. apply arun_bind_ok in Es as [s2 [c [H1 H2]]]. apply own_config_ok in H1 as [-> Hc].
  apply arun_bind_ok in H2 as [s2 [g [H1 H2]]]. pose proof (get_bingpg_ok _ _ _ _ H1) as ->.
  assert (Hhome : cf_mode c = L "own" -> home_seen s a = Some (own_gpghome a)).
  { intros Hm. unfold home_seen. rewrite H1. cbn [snd]. unfold get_bingpg in H1. rewrite arun_bind, arun_own_config, Hc in H1. destruct (negb _); [discriminate|].
    rewrite Hm in H1. change (text_eqb (L "own") (L "own")) with true in H1. cbv iota in H1. apply arun_lift_ok in H1 as [_ H1]. apply (mk_bingpg_home _ _ _ H1). }
  apply arun_bind_ok in H2 as [s2 [kh [H3 H2]]]. apply own_keyhandle_ok in H3 as [-> [k [Hk ->]]].
  apply arun_bind_ok in H2 as [s2 [infos [H3 H2]]]. apply list_uids in H3 as [O1 O2].
  assert (Hw2 : WF s2) by (eapply WF_logs; [apply O1|exact Hw]).
  assert (Hsame : exists_acct s2 a /\ own_of s2 a = own_of s a) by (destruct (same_peer s s2 a [] Hw Hw2 (proj1 O1) He) as [X1 [_ X2]]; auto).
  destruct Hsame as [He2 Ho2].
  apply arun_bind_ok in H2 as [s3 [ps [H3 H2]]]. apply arun_ret_ok in H2 as [-> ->].
  assert (Hps : s3 = s2 /\ (if v then exists vs, Forall2 (fun x v => peer_of s a x = Some v) (peer_names s a) vs /\ map peer_line ps = concat (map peer_text_of vs) else True)).
  { destruct v; [|apply arun_ret_ok in H3 as [-> _]; auto].
    apply arun_bind_ok in H3 as [s4 [xs [H3 H4]]]. unfold get_peername_list in H3. apply arun_bind_ok in H3 as [s5 [ns [H3 H5]]].
    apply arun_ret_ok in H5 as [-> ->]. unfold perform, arun in H3. cbn [run astep] in H3. injection H3 as <- <-.
    destruct (status_peers s2 a (sorted (with_prefix (peer_prefix a) (dkeys (a_logs s2)))) Hw2 He2) as [qs [vs [Q1 [Q2 Q3]]]].
    rewrite arun_bind, Q1 in H4. cbn [arun run] in H4. injection H4 as <- <-. split; [reflexivity|]. exists vs. split; [|exact Q3].
    unfold peer_names. rewrite <- (proj1 O1). eapply Forall2_mono; [|exact Q2]. intros x w Hx. rewrite <- Hx.
    symmetry. apply (same_peer s s2 a x Hw Hw2 (proj1 O1) He). }
  destruct Hps as [-> Hps]. split; [exact O1|].
  assert (Hname : cf_name c = a).
  { destruct (wf_own s Hw a) as [H|[_ H]]; [unfold config_of in Hc; rewrite H in Hc; discriminate|].
    destruct (own_ok_config a _ H) as [c' [C1 [_ C2]]]. unfold config_of in Hc. rewrite Hc in C1. injection C1 as <-. exact C2. }
  exists c, (kg_kh k), (concat (map ki_uids infos)). do 7 eexists.
  split; [rewrite own_of_spec by exact Hw; rewrite Hc, Hk; reflexivity|]. split; [exact O2|].
  split; [unfold account_lines; cbn [sa_cfg sa_kh sa_uids sa_peers]; rewrite Hname; reflexivity|].
  split; [apply (kecho_row (L "email_regex"))|].
  split. { intros Hm. rewrite (Hhome Hm), Hm. apply (kecho_row (L "gpgmode")). }
  split. { intros Hm. destruct (text_eqb_spec (cf_mode c) (L "own")) as [Hx|_]; [congruence|]. apply (kecho_row (L "gpgmode")). }
  split. { intros Hs. apply existsb_slash in Hs. rewrite Hs. apply (kecho_row (L "gpgbin")). }
  split. { intros p Hs Hp. rewrite <- existsb_slash in Hs. apply not_true_is_false in Hs. rewrite Hs, Hp. apply (kecho_row (L "gpgbin")). }
  split; [apply (kecho_row (L "prefer-encrypt"))|]. split; [apply (kecho_row (L "own-keyhandle"))|].
  split. { clear. induction (concat (map ki_uids infos)); constructor; [apply (kecho_row (L "^^ uid"))|assumption]. }
  destruct v; cbn [peers_seen]; [|reflexivity]. destruct Hps as [vs [V1 V2]]. exists (peer_names s a), vs.
  split; [apply peers_of_spec; assumption|]. split; [exact V1|].
  unfold peer_names in *. rewrite (proj1 O1). rewrite V2. destruct (sorted _); reflexivity.
Qed.
Lemma c63_account s n verbose p : reachable s -> outcome_of s (CmdStatus (Some n) verbose) = Ok p ->
  exists lines, p = Printed lines 0 None /\ a_logs (left_by s (CmdStatus (Some n) verbose)) = a_logs s /\
    account_text s (left_by s (CmdStatus (Some n) verbose)) n verbose lines.
Proof.
  intros Hr H. pose proof (reachable_WF s Hr) as Hw. unfold outcome_of, left_by in *. cbn [command_prog] in *. apply outcome_out in H as [l [H ->]].
  rewrite arun_out. cbn [fst]. destruct (arun (a <- get_account n true ;; cmd_status_account a verbose) s) as [s' r] eqn:Er. cbn [snd fst] in *. subst r.
  apply arun_bind_ok in Er as [s1 [a [H1 H2]]]. apply get_account_ok in H1 as [-> [-> He]]; [|exact Hw].
  destruct (status_account_text s s' n verbose l Hw He H2) as [[S1 _] S2]. exists l. auto.
Qed.
Lemma accounts_lines verbose ns : forall s s' ls, WF s ->
  arun (mapM (fun n => a <- get_account n true ;; l <- cmd_status_account a verbose ;; Ret (l ++ [[]])) ns) s = (s', Ok ls) ->
  only_gpg s s' /\ accounts_text verbose s ns (concat ls) s'.
Proof.
  induction ns as [|n ns IH]; intros s s' ls Hw H; cbn [mapM] in H.
  - apply arun_ret_ok in H as [-> ->]. split; [apply only_gpg_refl|constructor].
  - apply arun_bind_ok in H as [s1 [l [H1 H2]]]. apply arun_bind_ok in H2 as [s2 [ls' [H2 H3]]]. apply arun_ret_ok in H3 as [-> ->].
    apply arun_bind_ok in H1 as [s3 [a [H1 H3]]]. apply get_account_ok in H1 as [-> [-> He]]; [|exact Hw].
    apply arun_bind_ok in H3 as [s3 [l0 [H1 H3]]]. apply arun_ret_ok in H3 as [-> ->].
    apply status_account_text in H1 as [G1 T1]; [|exact Hw|exact He].
    apply IH in H2 as [G2 T2]; [|eapply WF_logs; [apply G1|exact Hw]]. split; [eapply only_gpg_trans; eauto|].
    cbn [concat]. rewrite <- app_assoc. econstructor; [apply G1|exact T1|exact T2].
Qed.
Lemma c63_all s verbose p : reachable s -> outcome_of s (CmdStatus None verbose) = Ok p ->
  a_logs (left_by s (CmdStatus None verbose)) = a_logs s /\
  match accounts_of s with
  | [] => p = Printed [L "account-dir: " ++ basedir; L "no accounts configured"] 0 None
  | ns => exists lines, p = Printed ((L "account-dir: " ++ basedir) :: lines) 0 None /\
            accounts_text verbose s ns lines (left_by s (CmdStatus None verbose))
  end.
Proof.
  intros Hr H. pose proof (reachable_WF s Hr) as Hw. unfold outcome_of, left_by in *. cbn [command_prog] in *. apply outcome_out in H as [l [H ->]].
  rewrite arun_out. cbn [fst]. unfold cmd_status_all in *. rewrite arun_bind, arun_names in *.
  destruct (accounts_of s) as [|n ns].
  - cbn [arun run snd fst] in *. injection H as <-. auto.
  - rewrite arun_bind in *. destruct (arun (mapM _ (n :: ns)) s) as [s' [ls|e]] eqn:Em; [|discriminate].
    cbn [arun run snd fst] in *. injection H as <-. apply accounts_lines in Em as [G T]; [|exact Hw]. split; [apply G|]. exists (concat ls). auto.
Qed.

Lemma status_exists s s' a v lines : arun (cmd_status_account a v) s = (s', Ok lines) -> exists_acct s a.
Proof.
  intros H. rewrite status_account_run in H.
  destruct (arun (cli_status_account a v) s) as [s1 [st|e]] eqn:Es; [|discriminate].
  unfold cli_status_account in Es. apply arun_bind_ok in Es as [s2 [c [H1 H2]]]. apply own_config_ok in H1 as [-> Hc].
  apply arun_bind_ok in H2 as [s2 [g [H1 H2]]]. pose proof (get_bingpg_ok _ _ _ _ H1) as ->.
  apply arun_bind_ok in H2 as [s2 [kh [H3 H2]]]. apply own_keyhandle_ok in H3 as [-> [k [Hk ->]]]. exists c, k. auto.
Qed.
Lemma c61_add s n sys key bin regex p : reachable s -> outcome_of s (CmdAdd n sys key bin regex) = Ok p ->
  let call := AAdd n regex key bin (if sys then L "system" else L "own") in
  exists a lines, answer s call = Ok (OText a) /\ p = Printed ((L "account added: '" ++ a ++ L "'") :: lines) 0 None /\
    account_text (after s call) (left_by s (CmdAdd n sys key bin regex)) a false lines.
Proof.
  intros Hr H. cbv zeta. unfold outcome_of, left_by in *. cbn [command_prog] in *. apply outcome_out in H as [l [H ->]].
  rewrite arun_out. cbn [fst]. unfold answer, after. cbn [exec]. rewrite !arun_bind in *.
  assert (Hw : WF (after s (AAdd n regex key bin (if sys then L "system" else L "own")))) by (apply WF_after, reachable_WF, Hr).
  unfold after in Hw. cbn [exec] in Hw. rewrite arun_bind in Hw.
  destruct (arun (add_account _ _ _ _ _) s) as [s1 [a|e]]; [|discriminate]. cbn [arun run fst snd] in *. fold (@arun E) in *. rewrite !arun_bind in *.
  destruct (arun (cmd_status_account a false) s1) as [s2 [ls|e]] eqn:Es; [|discriminate]. cbn [arun run fst snd] in *. injection H as <-.
  exists a, ls. split; [reflexivity|]. split; [reflexivity|]. apply (status_account_text s1 s2 a false ls Hw); [eapply status_exists; exact Es|exact Es].
Qed.
Lemma c61_mod s n key bin regex pref p : reachable s -> outcome_of s (CmdMod n key bin regex pref) = Ok p ->
  let call := AMod n regex key (Some (match bin with Some b => b | None => L "gpg" end)) pref in
  exists changed a lines, answer s call = Ok (OMod changed a) /\
    p = Printed ((if changed then L "account modified: '" ++ a ++ L "'" else L "account NOT modified: '" ++ a ++ L "'") :: lines) 0 None /\
    account_text (after s call) (left_by s (CmdMod n key bin regex pref)) a false lines.
Proof.
  intros Hr H. cbv zeta. unfold outcome_of, left_by in *. cbn [command_prog] in *. apply outcome_out in H as [l [H ->]].
  rewrite arun_out. cbn [fst]. unfold answer, after. cbn [exec]. rewrite !arun_bind in *.
  assert (Hw : WF (after s (AMod n regex key (Some (match bin with Some b => b | None => L "gpg" end)) pref))) by (apply WF_after, reachable_WF, Hr).
  unfold after in Hw. cbn [exec] in Hw. rewrite arun_bind in Hw.
  destruct (arun (mod_account _ _ _ _ _) s) as [s1 [[ch a]|e]]; [|discriminate]. cbn [arun run fst snd] in *. fold (@arun E) in *. rewrite !arun_bind in *.
  destruct (arun (cmd_status_account a false) s1) as [s2 [ls|e]] eqn:Es; [|discriminate]. cbn [arun run fst snd] in *. injection H as <-.
  exists ch, a, ls. split; [reflexivity|]. split; [destruct ch; reflexivity|]. apply (status_account_text s1 s2 a false ls Hw); [eapply status_exists; exact Es|exact Es].
Qed.
Lemma c61_del s n p : reachable s -> outcome_of s (CmdDel n) = Ok p ->
  let s1 := after s (ADel n) in
  answer s (ADel n) = Ok ONone /\ exists lines, p = Printed ((L "account deleted: '" ++ n ++ L "'") :: lines) 0 None /\
    outcome_of s1 (CmdStatus None true) = Ok (Printed lines 0 None) /\ left_by s (CmdDel n) = left_by s1 (CmdStatus None true).
Proof.
  intros Hr H. cbv zeta. unfold outcome_of, left_by in *. cbn [command_prog] in *. apply outcome_out in H as [l [H ->]].
  rewrite !arun_out. cbn [fst]. unfold answer, after. cbn [exec]. rewrite !arun_bind in *.
  destruct (arun (del_account n) s) as [s1 [[]|e]]; [|discriminate]. cbn [arun run fst snd] in *. fold (@arun E) in *. rewrite !arun_bind in *.
  destruct (arun (cmd_status_all true) s1) as [s2 [ls|e]] eqn:Es; [|discriminate]. cbn [arun run fst snd rmap] in *. injection H as <-.
  split; [reflexivity|]. exists ls. split; [unfold repr; rewrite <- ?app_assoc; reflexivity|]. split; reflexivity.
Qed.
Lemma c61_destroy s yes : reachable s ->
  (yes = false -> outcome_of s (CmdDestroyAll yes) = Ok (Printed [L "specify --yes if you really want to destroy all state"] 1 None) /\
     left_by s (CmdDestroyAll yes) = s) /\
  (yes = true -> version_log s = [] -> prints s (CmdDestroyAll yes) [] /\ left_by s (CmdDestroyAll yes) = s) /\
  (yes = true -> version_log s <> [] -> prints s (CmdDestroyAll yes) [L "deleting directory: " ++ basedir] /\
     left_by s (CmdDestroyAll yes) = after s ARemove).
Proof.
  intros Hr. pose proof (reachable_WF s Hr) as Hw. unfold prints, outcome_of, left_by, after. cbn [command_prog exec].
  assert (H : arun mgr_version s = (s, Ok (option_map ac_version (version_of s)))) by reflexivity.
  split; [intros ->; split; reflexivity|]. split; intros -> Hv; rewrite !arun_bind, H.
  - unfold version_of. unfold version_log in Hv. change (L ".") with mgr_chain in Hv. rewrite Hv. split; reflexivity.
  - apply version_some in Hv; auto. destruct (version_of s); [|congruence]. split; reflexivity.
Qed.

End CmdProofs2.
