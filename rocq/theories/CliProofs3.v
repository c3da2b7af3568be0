(** Scanning a directory and the bot: C50 to C52. *)
From Verif Require Import Base PyStr Base64 Env Prog Chain Gpg Mime States Recommendation Account Cmdline Bot Fs Api Steps StepFacts Exec ApiScope
  Spec Obs PeerSpec Incoming PeerFacts RecSpec RecProofs Quiet OutSpec OutProofs OutProofs2 AcctSpec AcctFacts AcctProofs AcctProofs2 Rings MimeTree CliSpec CliProofs CliProofs2.

Section Cli3.
Context {E : Env}.

(** ** C52 *)
Lemma arun_ret {A} (x : A) s : arun (Ret x) s = (s, Ok x). Proof. reflexivity. Qed.
Lemma too_old_recent now d : is_too_old now d = false <-> recent now d.
Proof. unfold is_too_old, recent, ninety_days. rewrite Z.ltb_ge. reflexivity. Qed.
Lemma too_old_not now d : is_too_old now d = true <-> ~ recent now d.
Proof. unfold is_too_old, recent, ninety_days. rewrite Z.ltb_lt. lia. Qed.
Lemma WF_ticked s : WF s -> WF (ticked s).
Proof. intros Hw. change (ticked s) with (step LTick s). apply step_WF; simpl; auto. Qed.

Lemma scan_one_cases reparse now s file : WF s ->
  match arun (scan_one reparse now file) s with
  | (s', Ok st) => scan_file reparse now s file st s'
  | (s', Err e) => scan_breaks reparse now s file e s'
  end.
Proof.
  intros Hw. unfold scan_one. destruct file as [mt m].
  destruct (is_too_old now mt) eqn:E1.
  { apply too_old_not in E1. apply sf_old_file. exact E1. }
  apply too_old_recent in E1.
  destruct (hget m (L "message-id")) as [id|] eqn:Eid; [|apply sf_no_id; assumption].
  assert (Hid : hget (snd (mt, m)) (L "message-id") <> None) by (cbn [snd]; congruence).
  rewrite arun_bind. destruct (parse_date_to_float (hget m (L "Date"))) as [d|e] eqn:Ed.
  2:{ cbn. apply sb_date; auto. }
  change (arun (lift (Ok d)) s) with (s, @Ok Z d). cbv beta iota.
  rewrite arun_bind. change (arun (effective_date d) s) with (ticked s, Ok (Z.min d (clock (a_tick s)))). cbv beta iota.
  destruct (is_too_old now (Z.min d (clock (a_tick s)))) eqn:E2.
  { apply too_old_not in E2. apply (sf_old_mail _ _ _ (mt, m) d); auto. }
  apply too_old_recent in E2.
  assert (Hex : examined now s (mt, m) d) by (split; [exact E1|]; split; [exact Hid|]; split; [exact Ed|exact E2]).
  rewrite arun_bind, arun_catch, arun_bind.
  pose proof (WF_ticked s Hw) as Hwt.
  assert (Hra : answer (ticked s) (ARoute m) = match snd (arun (get_matching_account m) (ticked s)) with Ok a => Ok (OText a) | Err e => Err e end).
  { unfold answer. cbn [exec]. rewrite arun_bind. destruct (arun (get_matching_account m) (ticked s)) as [s1 [a|e]]; reflexivity. }
  assert (Hrs : after (ticked s) (ARoute m) = fst (arun (get_matching_account m) (ticked s))).
  { unfold after. cbn [exec]. rewrite arun_bind. destruct (arun (get_matching_account m) (ticked s)) as [s1 [a|e]]; reflexivity. }
  destruct (arun (get_matching_account m) (ticked s)) as [s1 [a|e]] eqn:Em; cbn [fst snd] in Hra, Hrs.
  2:{ destruct e; cbn; rewrite <- Hrs;
        first [ apply (sf_nobody _ _ _ (mt, m) d _ Hex Hra); cbn; tauto
              | apply (sb_route _ _ _ (mt, m) _ d Hex Hra); cbn; intuition discriminate ]. }
  destruct (matching_ok _ _ _ _ Hwt Em) as [-> He]. rewrite arun_ret. cbv beta iota.
  rewrite arun_bind, arun_catch, arun_bind.
  destruct (answer_incoming (ticked s) a m (negb reparse) false Hwt He) as [A1 A2].
  pose proof (incoming_some (ticked s) a m (negb reparse) false) as Hi.
  pose proof (incoming_exists (ticked s) a m (negb reparse) false Hwt He) as He2.
  pose proof (WF_after (ticked s) (AIncoming a m (negb reparse) false) Hwt) as Hw2.
  destruct (arun (process_incoming a m (negb reparse) false) (ticked s)) as [s2 [oi|e]] eqn:Ep; cbn [fst snd] in A1, A2, Hi.
  2:{ destruct e; cbn; rewrite <- A1;
        first [ apply (sf_no_decrypt _ _ _ (mt, m) d a Hex Hra A2)
              | apply (sb_process _ _ _ (mt, m) _ d a Hex Hra A2); discriminate ]. }
  rewrite !arun_ret. cbv beta iota. destruct oi as [i|].
  - destruct (Hi i Hwt He eq_refl) as [_ Hc].
    destruct (has_error (in_pah i)) eqn:Eh.
    + rewrite arun_ret, <- A1. unfold has_error in Eh. destruct (p_error (in_pah i)) as [e|] eqn:Epe; [|discriminate].
      apply (sf_error _ _ _ (mt, m) d a i e Hex Hra A2); [exact Epe|]. apply nonempty_true. exact Eh.
    + rewrite arun_bind, Hc. change (arun (perform (CRead (peer_chain a (sender_of m)))) s2) with (s2, Ok (peer_log s2 a (sender_of m))).
      cbv beta iota. rewrite arun_ret, <- A1.
      assert (Hv := peer_of_spec _ a (from_addr m) Hw2 He2).
      apply (sf_found _ _ _ (mt, m) d a i _ Hex Hra A2) in Hv.
      * cbn [view_of pv_ac_timestamp snd] in Hv. fold (sender_of m) in Hv. exact Hv.
      * unfold has_error in Eh. destruct (p_error (in_pah i)) as [[|]|]; [auto|discriminate|auto].
  - rewrite arun_ret, <- A1. apply (sf_known _ _ _ (mt, m) d a Hex Hra A2).
Qed.
Lemma scan_file_WF reparse now s f st s' : WF s -> scan_file reparse now s f st s' -> WF s'.
Proof. intros Hw H. destruct H; auto using WF_ticked, WF_after. Qed.

Lemma scan_cases reparse now files : forall s, WF s ->
  match arun (mapM (scan_one reparse now) files) s with
  | (s', Ok sts) => scan_files reparse now s files sts s'
  | (s', Err e) => exists f1 f f2 sts s1, files = f1 ++ f :: f2 /\ scan_files reparse now s f1 sts s1 /\ scan_breaks reparse now s1 f e s'
  end.
Proof.
  induction files as [|f files IH]; intros s Hw; cbn [mapM].
  - constructor.
  - rewrite arun_bind. pose proof (scan_one_cases reparse now s f Hw) as H1.
    destruct (arun (scan_one reparse now f) s) as [s1 [st|e]].
    + specialize (IH s1 (scan_file_WF _ _ _ _ _ _ Hw H1)). rewrite arun_bind.
      destruct (arun (mapM (scan_one reparse now) files) s1) as [s2 [sts|e]].
      * rewrite arun_ret. econstructor; eauto.
      * destruct IH as [f1 [g [f2 [sts [s3 [-> [H2 H3]]]]]]]. exists (f :: f1), g, f2, (st :: sts), s3.
        split; [reflexivity|]. split; [econstructor; eauto|exact H3].
    + exists [], f, files, [], s. split; [reflexivity|]. split; [constructor|exact H1].
Qed.

Theorem c52_scan : forall s reparse files, reachable s ->
  (exists sts, answer s (ACliScandir reparse files) = Ok (OScan sts) /\
     scan_files reparse (clock (a_tick s)) (ticked s) files sts (after s (ACliScandir reparse files))) \/
  (exists e f1 f f2 sts s1, files = f1 ++ f :: f2 /\ answer s (ACliScandir reparse files) = Err e /\
     scan_files reparse (clock (a_tick s)) (ticked s) f1 sts s1 /\
     scan_breaks reparse (clock (a_tick s)) s1 f e (after s (ACliScandir reparse files))).
Proof.
  intros s reparse files Hr. pose proof (WF_ticked s (reachable_WF s Hr)) as Hw. unfold answer, after. cbn [exec]. unfold cli_scandir.
  rewrite !arun_bind. change (arun (perform CTime) s) with (ticked s, Ok (clock (a_tick s))). cbv beta iota.
  pose proof (scan_cases reparse (clock (a_tick s)) files (ticked s) Hw) as H.
  destruct (arun (mapM (scan_one reparse (clock (a_tick s))) files) (ticked s)) as [s1 [sts|e]].
  - left. exists sts. split; [reflexivity|exact H].
  - right. destruct H as [f1 [f [f2 [sts [s2 [-> [H2 H3]]]]]]]. exists e, f1, f, f2, sts, s2. auto.
Qed.

(** ** C50 *)
Lemma contains_occurs p s : contains p s = true <-> occurs_in p s.
Proof.
  induction s as [|c s IH].
  - cbn. rewrite orb_false_r, startswith_spec. split.
    + intros [r H]. exists [], r. exact H.
    + intros [a [b H]]. symmetry in H. apply app_eq_nil in H as [_ H]. apply app_eq_nil in H as [-> ->]. exists []. reflexivity.
  - cbn [contains]. rewrite orb_true_iff, startswith_spec, IH. split.
    + intros [[r H]|[a [b H]]]; [exists [], r; exact H|]. exists (c :: a), b. rewrite H. reflexivity.
    + intros [[|x a] [b H]]; [left; exists b; exact H|]. right. injection H as -> H. exists a, b. exact H.
Qed.
Lemma contains_not p s : contains p s = false <-> ~ occurs_in p s.
Proof. rewrite <- contains_occurs. destruct (contains p s); split; congruence. Qed.
Lemma delivered_address m fb me : get_delivered_to m fb = Ok me -> bot_address m fb me.
Proof.
  unfold get_delivered_to, bot_address. cbv zeta. destruct (nonempty (parse_email_addr (hget m (L "Delivered-To")))) eqn:E1.
  - rewrite E1. intros [= <-]. apply nonempty_true in E1. auto.
  - apply nonempty_false in E1. destruct fb as [f|].
    + destruct (nonempty f) eqn:E2.
      * destruct (nonempty (parse_email_addr (Some f))) eqn:E3; [|discriminate]. intros [= <-]. apply nonempty_true in E3, E2. split; [exact E3|]. right. eauto.
      * rewrite E1. discriminate.
    + rewrite E1. discriminate.
Qed.

Lemma format_others_ok me l cc : format_others me l = Ok cc <-> formatted (others_of me l) cc.
Proof.
  unfold formatted, others_of. revert cc. induction l as [|[rn x] l IH]; intros cc; cbn [format_others filter snd].
  - split; [intros [= <-]; constructor|]. intros H. inversion H. reflexivity.
  - destruct (nonempty x && negb (text_eqb x me)); [|apply IH]. split.
    + destruct (formataddr (rn, x)) as [t|] eqn:Ef; [|discriminate]. cbn [rbind].
      destruct (format_others me l) as [r|]; [|discriminate]. cbn [rbind]. intros [= <-]. constructor; [exact Ef|]. apply IH. reflexivity.
    + intros H. inversion H as [|p t ps ts H1 H2]; subst. apply IH in H2. rewrite H1, H2. reflexivity.
Qed.
Lemma others_of_In me l rn x : In (rn, x) (others_of me l) <-> In (rn, x) l /\ x <> [] /\ x <> me.
Proof.
  unfold others_of. rewrite filter_In. cbn [snd]. rewrite andb_true_iff, negb_true_iff, nonempty_true, text_eqb_neq. reflexivity.
Qed.

Definition bot_mail (s3 : ast) (me from : text) (cc : list text) (m : msg) (ac body : text) : msg :=
  gen_reply me from cc (uuid_hex (a_uuid s3))
    (L "Re: " ++ match hget m (L "Subject") with Some s => s | None => [] end)
    (formatdate (clock (a_tick s3)))
    (match hget m (L "Message-ID") with Some i => i | None => [] end) ac body.

Lemma WF_drawn s : WF s -> WF (drawn s).
Proof.
  intros Hw. change (drawn s) with (step LTick (step LUuid s)). apply step_WF; [apply step_WF; simpl; auto|simpl; auto].
Qed.
Lemma answer_decrypt s a m : WF s -> exists_acct s a ->
  arun (decrypt_mime a m) s = (after s (ADecrypt a m), match answer s (ADecrypt a m) with Ok (ODecrypted dm infos) => Ok (dm, infos) | Ok _ => Err TypeError | Err e => Err e end).
Proof.
  intros Hw He. unfold after, answer. cbn [exec]. rewrite arun_with_account by auto. rewrite arun_bind.
  destruct (arun (decrypt_mime a m) s) as [s1 [[dm infos]|e]]; reflexivity.
Qed.
Lemma answer_header s a x : WF s -> exists_acct s a ->
  arun (make_ac_header a x) s = (after s (AHeader a x), match answer s (AHeader a x) with Ok (OText h) => Ok h | Ok _ => Err TypeError | Err e => Err e end).
Proof.
  intros Hw He. unfold after, answer. cbn [exec]. rewrite arun_with_account by auto. rewrite arun_bind.
  destruct (arun (make_ac_header a x) s) as [s1 [h|e]]; reflexivity.
Qed.
Lemma answer_enc s a m to : WF s -> exists_acct s a ->
  arun (encrypt_mime a m to) s = (after s (AEncrypt a m to), match answer s (AEncrypt a m to) with Ok (OEncrypted em khs) => Ok (em, khs) | Ok _ => Err TypeError | Err e => Err e end).
Proof.
  intros Hw He. unfold after, answer. cbn [exec]. rewrite arun_with_account by auto. rewrite arun_bind.
  destruct (arun (encrypt_mime a m to) s) as [s1 [[em khs]|e]]; reflexivity.
Qed.
Lemma answer_find s x b : after s (AFind x b) = fst (arun (get_account_from_emailadr x b) s) /\
  answer s (AFind x b) = match snd (arun (get_account_from_emailadr x b) s) with Ok r => Ok (OOptText r) | Err e => Err e end.
Proof. unfold after, answer. cbn [exec]. rewrite arun_bind. destruct (arun (get_account_from_emailadr x b) s) as [s1 [r|e]]; auto. Qed.
Lemma bot_decrypted_WF a m s1 s2 : WF s1 -> exists_acct s1 a -> bot_decrypted a m s1 s2 -> WF s2 /\ exists_acct s2 a /\ a_logs s2 = a_logs s1.
Proof.
  intros Hw He [[_ ->]|[_ [-> _]]]; [auto|]. split; [apply WF_after; exact Hw|]. split; [apply after_exists; auto|].
  pose proof (answer_decrypt s1 a m Hw He) as H. destruct (quiet_logs (decrypt_mime a m) s1 (quiet_decrypt_mime a m)) as [Hl _]. rewrite H in Hl. exact Hl.
Qed.
Lemma decrypt_is s a m dm infos : WF s -> exists_acct s a -> arun (decrypt_mime a m) s = (dm, infos) ->
  dm = after s (ADecrypt a m) /\ forall x, infos = Ok x -> exists d i, answer s (ADecrypt a m) = Ok (ODecrypted d i).
Proof.
  intros Hw He H. rewrite answer_decrypt in H by auto. injection H as <- <-. split; [reflexivity|].
  intros x. destruct (answer s (ADecrypt a m)) as [[]|]; try discriminate. eauto.
Qed.

(** what the bot does, as a sequence of calls *)
Lemma bot_run s fb body m r s' : WF s -> arun (bot_reply fb body m) s = (s', Ok r) ->
  exists me a i s2 q to, get_delivered_to m fb = Ok me /\ exists_acct s a /\ answer s (AFind me false) = Ok (OOptText (Some a)) /\
    answer s (AIncoming a m false false) = Ok (OIncoming (Some i)) /\
    bot_decrypted a m (after s (AIncoming a m false false)) s2 /\
    arun (recommend a [hget m (L "From")] (replying_encrypted m) None) s2 = (s2, Ok q) /\
    hget m (L "To") = Some to /\
    ((~ occurs_in me to /\ r = None /\ s' = s2) \/
     (occurs_in me to /\ exists from cc ac, hget m (L "From") = Some from /\
        formatted (others_of me (set_order (addressed m))) cc /\ answer s2 (AHeader a me) = Ok (OText ac) /\
        let s3 := after s2 (AHeader a me) in
        ((q <> Some (L "encrypt") /\ r = Some (bot_mail s3 me from cc m ac body) /\ s' = drawn s3) \/
         (q = Some (L "encrypt") /\ s' = after (drawn s3) (AEncrypt a (bot_mail s3 me from cc m ac body) (from :: cc)) /\
          exists em khs, r = Some em /\ answer (drawn s3) (AEncrypt a (bot_mail s3 me from cc m ac body) (from :: cc)) = Ok (OEncrypted em khs))))).
Proof.
  intros Hw H. unfold bot_reply in H.
  apply arun_bind_ok in H as [s1 [me [H1 H]]]. apply arun_lift_ok in H1 as [-> Hme].
  apply arun_bind_ok in H as [s1 [[a|] [H1 H]]]; [|discriminate].
  assert (Hf : answer s (AFind me false) = Ok (OOptText (Some a))) by (rewrite (proj2 (answer_find s me false)), H1; reflexivity).
  apply from_emailadr_ok in H1 as [-> He]; [|exact Hw].
  apply arun_bind_ok in H as [s1 [[i|] [H1 H]]]; [|discriminate].
  destruct (answer_incoming s a m false false Hw He) as [A1 A2]. rewrite H1 in A1, A2. cbn [fst snd] in A1, A2. subst s1.
  pose proof (WF_after s (AIncoming a m false false) Hw) as Hw1. pose proof (incoming_exists s a m false false Hw He) as He1.
  apply arun_bind_ok in H as [s2 [b [H2 H]]].
  assert (Hb : b = replying_encrypted m /\ bot_decrypted a m (after s (AIncoming a m false false)) s2).
  { unfold replying_encrypted, bot_decrypted. destruct (text_eqb_spec (get_content_type m) (L "multipart/encrypted")) as [Hc|Hc].
    - apply arun_bind_ok in H2 as [s3 [x [H2 H3]]]. apply arun_ret_ok in H3 as [-> ->]. split; [reflexivity|]. right. split; [exact Hc|].
      apply decrypt_is in H2 as [-> H2]; auto. destruct (H2 x eq_refl) as [d [inf H3]]. eauto.
    - apply arun_ret_ok in H2 as [-> ->]. auto. }
  destruct Hb as [-> Hdec]. destruct (bot_decrypted_WF _ _ _ _ Hw1 He1 Hdec) as [Hw2 [He2 Hl2]].
  apply arun_bind_ok in H as [s3 [kh [H3 H]]]. apply own_keyhandle_ok in H3 as [-> _].
  apply arun_bind_ok in H as [s3 [q [H3 H]]].
  assert (Hs3 : s3 = s2).
  { pose proof He2 as [c [k [Hc _]]]. destruct (recommend_run s2 a c [hget m (L "From")] (replying_encrypted m) None Hw2 Hc) as [r0 [H4 _]].
    rewrite H4 in H3. injection H3 as <- _. reflexivity. }
  subst s3. destruct (hget m (L "To")) as [to|] eqn:Eto; [|discriminate].
  exists me, a, i, s2, q, to. do 7 (split; [assumption || reflexivity|]).
  destruct (contains me to) eqn:Ec; cbn [negb] in H.
  2:{ left. apply contains_not in Ec. apply arun_ret_ok in H as [-> ->]. auto. }
  right. split; [apply contains_occurs; exact Ec|].
  apply arun_bind_ok in H as [s3 [cc [H4 H]]]. apply arun_lift_ok in H4 as [-> Hcc]. apply format_others_ok in Hcc.
  apply arun_bind_ok in H as [s3 [ac [H4 H]]].
  rewrite answer_header in H4 by auto. injection H4 as <- H4.
  assert (Hac : answer s2 (AHeader a me) = Ok (OText ac)) by (destruct (answer s2 (AHeader a me)) as [[]|]; congruence).
  destruct (hget m (L "From")) as [from|] eqn:Efr; [|discriminate].
  exists from, cc, ac. split; [reflexivity|]. split; [exact Hcc|]. split; [exact Hac|]. cbv zeta.
  pose proof (WF_after s2 (AHeader a me) Hw2) as Hw3.
  assert (He3 : exists_acct (after s2 (AHeader a me)) a) by (apply after_exists; auto).
  set (s3 := after s2 (AHeader a me)) in *.
  assert (Hd : forall X (f : text -> Z -> prog cop X), arun (id <- perform CUuid ;; now <- perform CTime ;; f id now) s3 =
    arun (f (uuid_hex (a_uuid s3)) (clock (a_tick s3))) (drawn s3)) by reflexivity.
  rewrite Hd in H. cbv zeta in H. fold (bot_mail s3 me from cc m ac body) in H.
  destruct (otext_eqb q (Some (L "encrypt"))) eqn:Eq.
  - right. assert (q = Some (L "encrypt")) as -> by (destruct q as [q|]; [|discriminate]; cbn in Eq; apply text_eqb_eq in Eq; congruence).
    split; [reflexivity|].
    apply arun_bind_ok in H as [s4 [[em khs] [H5 H]]].
    apply arun_bind_ok in H as [s5 [b [H6 H]]]. apply arun_lift_ok in H6 as [-> _].
    apply arun_bind_ok in H as [s5 [[] [H6 H]]]. apply arun_assert_ok in H6 as [-> _]. apply arun_ret_ok in H as [-> ->].
    rewrite answer_enc in H5; [|apply WF_drawn; exact Hw3|exact He3]. injection H5 as <- H5. split; [reflexivity|].
    exists em, khs. split; [reflexivity|]. destruct (answer _ (AEncrypt _ _ _)) as [[]|]; congruence.
  - left. apply arun_ret_ok in H as [-> ->]. split; [|auto]. intros ->. discriminate Eq.
Qed.

Lemma bot_mail_headers s3 me from cc m ac body :
  let rep := bot_mail s3 me from cc m ac body in
  forall em, em = rep \/ m_headers em = (L "Content-Type", encrypted_ctype) :: outer_headers rep ->
  hget_all em (L "From") = [me] /\ hget_all em (L "To") = [from] /\ hget_all em (L "Cc") = cc_field cc.
Proof.
  cbv zeta. intros em [-> |H].
  - destruct cc as [|c cc]; (split; [reflexivity|]); split; reflexivity.
  - rewrite !(hget_all_headers em _ _ H).
    destruct cc as [|c cc]; (split; [reflexivity|]); split; reflexivity.
Qed.
Lemma enc_facts s a mm to em khs : WF s -> exists_acct s a -> answer s (AEncrypt a mm to) = Ok (OEncrypted em khs) ->
  exists c own gs clear data enc, own_of s a = Some (c, own) /\
    Forall2 (fun x => key_in_use s a (norm x)) to khs /\ Forall2 (fun x => gossip_about s a (norm x)) to gs /\
    m_body clear = m_body mm /\
    m_headers clear = inner_headers mm ++ map (fun v => (L "Autocrypt-Gossip", v)) (concat gs) /\
    flatten clear = Ok data /\ gpg_encrypted s (after s (AEncrypt a mm to)) khs own data enc /\
    m_body em = pgp_body enc /\ m_headers em = (L "Content-Type", encrypted_ctype) :: outer_headers mm.
Proof.
  intros Hw He H. pose proof (answer_enc s a mm to Hw He) as Hr. rewrite H in Hr.
  destruct (exists_own s a Hw He) as [c [own Ho]].
  apply (encrypt_mime_ok s _ a mm to em khs own c Hw Ho) in Hr as [G [K [gs [clear [data [enc [I1 [I2 [I3 [I4 [I5 [I6 I7]]]]]]]]]]]].
  exists c, own, gs, clear, data, enc. auto 10.
Qed.
Lemma answer_bot s fb body m r : answer s (ABot fb body m) = Ok (OOptMsg r) -> arun (bot_reply fb body m) s = (after s (ABot fb body m), Ok r).
Proof.
  unfold answer, after. cbn [exec]. rewrite arun_bind. destruct (arun (bot_reply fb body m) s) as [s1 [x|e]]; cbn; congruence.
Qed.

Lemma header_logs s a x : WF s -> exists_acct s a -> a_logs (after s (AHeader a x)) = a_logs s.
Proof.
  intros Hw He. destruct (quiet_logs (make_ac_header a x) s (quiet_make_ac_header a x)) as [Hl _].
  rewrite answer_header in Hl by auto. exact Hl.
Qed.
Lemma encrypt_logs s a m to : WF s -> exists_acct s a -> a_logs (after s (AEncrypt a m to)) = a_logs s.
Proof.
  intros Hw He. destruct (quiet_logs (encrypt_mime a m to) s (quiet_encrypt_mime a m to)) as [Hl _].
  rewrite answer_enc in Hl by auto. exact Hl.
Qed.

Theorem c50_reply : forall s fb body m r, reachable s -> answer s (ABot fb body m) = Ok (OOptMsg r) ->
  exists me to, bot_address m fb me /\ hget m (L "To") = Some to /\
    match r with
    | None => ~ occurs_in me to
    | Some rep => occurs_in me to /\
        exists from ps ts, hget m (L "From") = Some from /\ hget_all rep (L "From") = [me] /\ hget_all rep (L "To") = [from] /\
          hget_all rep (L "Cc") = cc_field ts /\ formatted ps ts /\
          (set_laws -> NoDup ps /\ forall rn x, In (rn, x) ps <-> In (rn, x) (addressed m) /\ x <> [] /\ x <> me)
    end.
Proof.
  intros s fb body m r Hr H. apply answer_bot in H. pose proof (reachable_WF s Hr) as Hw.
  apply bot_run in H as [me [a [i [s2 [q [to [B1 [B2 [B3 [B4 [B5 [B6 [B7 B8]]]]]]]]]]]]]; [|exact Hw].
  exists me, to. split; [apply delivered_address; exact B1|]. split; [exact B7|].
  destruct B8 as [[C1 [-> _]]|[C1 [from [cc [ac [C2 [C3 [C4 C5]]]]]]]]; [exact C1|]. cbv zeta in C5.
  pose proof (WF_after s (AIncoming a m false false) Hw) as Hw1. pose proof (incoming_exists s a m false false Hw B2) as He1.
  destruct (bot_decrypted_WF _ _ _ _ Hw1 He1 B5) as [Hw2 [He2 _]].
  assert (Hset : set_laws -> NoDup (others_of me (set_order (addressed m))) /\
    forall rn x, In (rn, x) (others_of me (set_order (addressed m))) <-> In (rn, x) (addressed m) /\ x <> [] /\ x <> me).
  { intros HS. destruct (HS (addressed m)) as [S1 S2]. split; [apply NoDup_filter; exact S1|].
    intros rn x. rewrite others_of_In, S2. reflexivity. }
  set (s3 := after s2 (AHeader a me)) in *.
  destruct C5 as [[_ [-> _]]|[_ [_ [em [khs [-> C6]]]]]].
  - split; [exact C1|]. exists from, (others_of me (set_order (addressed m))), cc.
    destruct (bot_mail_headers s3 me from cc m ac body _ (or_introl eq_refl)) as [H1 [H2 H3]]. auto 10.
  - apply enc_facts in C6 as [c [own [gs [clear [data [enc [_ [_ [_ [_ [_ [_ [_ [_ I7]]]]]]]]]]]]]].
    + split; [exact C1|]. exists from, (others_of me (set_order (addressed m))), cc.
      destruct (bot_mail_headers s3 me from cc m ac body em (or_intror I7)) as [H1 [H2 H3]]. auto 10.
    + apply WF_drawn, WF_after; exact Hw2.
    + apply (after_exists s2 (AHeader a me) a) in He2; auto.
Qed.

(** ** C51 *)
(** a state with the same logs is the same for recommendations *)
Lemma recommended_logs s s2 a from b q : WF s -> WF s2 -> exists_acct s2 a -> a_logs s = a_logs s2 ->
  arun (recommend a [Some from] b None) s2 = (s2, Ok (Some q)) -> recommended s a [from] b q.
Proof.
  intros Hw Hw2 He2 Hl H. assert (He : exists_acct s a).
  { destruct He2 as [c [k [Hc Hk]]]. exists c, k. unfold config_of, keygen_of, alog in *. rewrite Hl. auto. }
  pose proof He as [c [k [Hc Hk]]].
  assert (Hc2 : config_of s2 a = Some c) by (unfold config_of, alog in *; rewrite <- Hl; exact Hc).
  destruct (recommend_run s a c [Some from] b None Hw Hc) as [r [R1 R2]].
  destruct (recommend_run s2 a c [Some from] b None Hw2 Hc2) as [r2 [R3 R4]].
  rewrite H in R3. injection R3 as ->. apply (overall_logs s s2) in R4; [|congruence].
  pose proof (overall_fun _ _ _ _ _ _ _ R2 R4) as ->.
  unfold recommended, answer. cbn [exec]. rewrite arun_with_account by auto. rewrite arun_bind. cbn [map]. rewrite R1. reflexivity.
Qed.
Lemma recommend_some s a x b : WF s -> exists_acct s a -> exists q, arun (recommend a [x] b None) s = (s, Ok (Some q)).
Proof. intros Hw [c [k [Hc _]]]. destruct (recommend_run s a c [x] b None Hw Hc) as [r [R1 _]]. eauto. Qed.

Theorem c51_encrypted : forall s fb body m rep, reachable s -> answer s (ABot fb body m) = Ok (OOptMsg (Some rep)) ->
  exists me a from q ts, bot_address m fb me /\ answer s (AFind me false) = Ok (OOptText (Some a)) /\ hget m (L "From") = Some from /\
    hget_all rep (L "Cc") = cc_field ts /\
    recommended (after s (ABot fb body m)) a [from] (replying_encrypted m) q /\
    (q <> L "encrypt" -> is_encrypted rep = Ok false /\ m_body rep = mimetext body) /\
    (q = L "encrypt" -> is_encrypted rep = Ok true /\
       exists c own khs clear data enc, own_of (after s (ABot fb body m)) a = Some (c, own) /\ m_body rep = pgp_body enc /\
         Forall2 (fun x => key_in_use (after s (ABot fb body m)) a (norm x)) (from :: ts) khs /\
         m_body clear = mimetext body /\ flatten clear = Ok data /\
         gpg_encrypted (after s (AIncoming a m false false)) (after s (ABot fb body m)) khs own data enc).
Proof.
  intros s fb body m r Hr H. pose proof (WF_after s (ABot fb body m) (reachable_WF s Hr)) as Hw'. apply answer_bot in H. pose proof (reachable_WF s Hr) as Hw.
  apply bot_run in H as [me [a [i [s2 [q [to [B1 [B2 [B3 [B4 [B5 [B6 [B7 B8]]]]]]]]]]]]]; [|exact Hw].
  pose proof (WF_after s (AIncoming a m false false) Hw) as Hw1. pose proof (incoming_exists s a m false false Hw B2) as He1.
  destruct (bot_decrypted_WF _ _ _ _ Hw1 He1 B5) as [Hw2 [He2 Hl2]].
  destruct B8 as [[C1 [? _]]|[C1 [from [cc [ac [C2 [C3 [C4 C5]]]]]]]]; [discriminate|]. cbv zeta in C5.
  rewrite C2 in B6. destruct (recommend_some s2 a (Some from) (replying_encrypted m) Hw2 He2) as [q' Hq']. rewrite B6 in Hq'. injection Hq' as ->.
  pose proof (header_logs s2 a me Hw2 He2) as Hl3.
  assert (Hw3 : WF (drawn (after s2 (AHeader a me)))) by (apply WF_drawn, WF_after; exact Hw2).
  assert (He3 : exists_acct (drawn (after s2 (AHeader a me))) a) by (apply (after_exists s2 (AHeader a me) a) in He2; auto).
  set (s3 := after s2 (AHeader a me)) in *. set (s' := after s (ABot fb body m)) in *.
  assert (Hl' : a_logs s' = a_logs s2).
  { destruct C5 as [[_ [_ ->]]|[_ [-> _]]]; [exact Hl3|]. rewrite encrypt_logs by auto. exact Hl3. }
  exists me, a, from, q', cc. split; [apply delivered_address; exact B1|]. split; [exact B3|]. split; [exact C2|].
  pose proof (recommended_logs s' s2 a from _ _ Hw' Hw2 He2 Hl' B6) as Hrec.
  destruct C5 as [[D1 [D2 D3]]|[D1 [D2 [em [khs [D3 D4]]]]]].
  - injection D2 as ->. split; [apply (bot_mail_headers s3 me from cc m ac body _ (or_introl eq_refl))|].
    split; [exact Hrec|]. split; [intros _; split; reflexivity|congruence].
  - injection D1 as ->. injection D3 as ->.
    apply enc_facts in D4 as [c [own [gs [clear [data [enc [I0 [K [I1 [I2 [I3 [I4 [I5 [I6 I7]]]]]]]]]]]]]]; auto.
    split; [apply (bot_mail_headers s3 me from cc m ac body em (or_intror I7))|].
    split; [exact Hrec|]. split; [congruence|]. intros _. split; [eapply pgp_encrypted'; eauto|].
    assert (Hs : forall y, peer_of s' a y = peer_of (drawn s3) a y /\ own_of s' a = own_of (drawn s3) a).
    { intros y. destruct (same_peer (drawn s3) s' a y Hw3 Hw') as [_ H1]; auto. rewrite D2. apply encrypt_logs; auto. }
    exists c, own, khs, clear, data, enc. split; [rewrite (proj2 (Hs [])); exact I0|]. split; [exact I6|].
    split. { eapply Forall2_mono; [|exact K]. intros x kh [v [Hv Hk]]. exists v. rewrite (proj1 (Hs _)), (proj2 (Hs [])). auto. }
    split; [exact I2|]. split; [exact I4|].
    destruct I5 as [home [argv [r [R1 [R2 R3]]]]]. exists home, argv, r. split; [|auto].
    apply (ran_here _ (drawn s3) s' s'); [|rewrite D2; exact R1|apply only_gpg_refl].
    assert (Q2 : only_gpg (after s (AIncoming a m false false)) s2).
    { split; [exact Hl2|]. destruct B5 as [[_ ->]|[_ [-> _]]]; [exists []; reflexivity|].
      destruct (quiet_logs (decrypt_mime a m) (after s (AIncoming a m false false)) (quiet_decrypt_mime a m)) as [_ Hq]. rewrite answer_decrypt in Hq by auto. exact Hq. }
    eapply only_gpg_trans; [exact Q2|]. split; [exact Hl3|].
    destruct (quiet_logs (make_ac_header a me) s2 (quiet_make_ac_header a me)) as [_ Hq]. rewrite answer_header in Hq by auto. exact Hq.
Qed.

(** and when there is an answer *)
Theorem c51_answers : forall s fb body m me a i to from h s2, reachable s ->
  bot_address m fb me -> answer s (AFind me false) = Ok (OOptText (Some a)) ->
  answer s (AIncoming a m false false) = Ok (OIncoming (Some i)) ->
  hget m (L "To") = Some to -> occurs_in me to -> hget m (L "From") = Some from ->
  bot_decrypted a m (after s (AIncoming a m false false)) s2 ->
  (forall p, In p (set_order (addressed m)) -> exists t, formataddr p = Ok t) ->
  answer s2 (AHeader a me) = Ok (OText h) ->
  (recommended s2 a [from] (replying_encrypted m) (L "encrypt") ->
   forall mm ts, m_body mm = mimetext body -> formatted (others_of me (set_order (addressed m))) ts ->
   exists em khs, answer (drawn (after s2 (AHeader a me))) (AEncrypt a mm (from :: ts)) = Ok (OEncrypted em khs)) ->
  exists rep, answer s (ABot fb body m) = Ok (OOptMsg (Some rep)).
Proof.
  intros s fb body m me a i to from h s2 Hr Hme Hf Hi Hto Hoc Hfrom Hdec Hfmt Hh Henc.
  pose proof (reachable_WF s Hr) as Hw.
  assert (Hd : get_delivered_to m fb = Ok me).
  { unfold get_delivered_to. destruct Hme as [Hn [[-> H2]|[H1 [f [-> [H2 ->]]]]]].
    - apply nonempty_true in H2. rewrite H2. cbv zeta. rewrite H2. reflexivity.
    - rewrite H1. cbn [nonempty]. cbv zeta. apply nonempty_true in Hn, H2. rewrite H2, Hn. reflexivity. }
  assert (Hfa : arun (get_account_from_emailadr me false) s = (s, Ok (Some a)) /\ exists_acct s a).
  { rewrite (proj2 (answer_find s me false)) in Hf. destruct (arun (get_account_from_emailadr me false) s) as [s1 [x|]] eqn:Ef; [|discriminate].
    cbn [snd] in Hf. injection Hf as ->. apply from_emailadr_ok in Ef as Hx; [|exact Hw]. destruct Hx as [-> He]. auto. }
  destruct Hfa as [Hfa He].
  destruct (answer_incoming s a m false false Hw He) as [A1 A2]. rewrite Hi in A2.
  pose proof (WF_after s (AIncoming a m false false) Hw) as Hw1. pose proof (incoming_exists s a m false false Hw He) as He1.
  destruct (bot_decrypted_WF _ _ _ _ Hw1 He1 Hdec) as [Hw2 [He2 _]].
  set (s1 := after s (AIncoming a m false false)) in *.
  assert (Hp : arun (process_incoming a m false false) s = (s1, Ok (Some i))).
  { destruct (arun (process_incoming a m false false) s) as [x [o|]]; cbn [fst snd] in A1, A2; congruence. }
  assert (Hcc : exists ts, formatted (others_of me (set_order (addressed m))) ts).
  { clear - Hfmt. unfold formatted, others_of. induction (set_order (addressed m)) as [|p l IH]; cbn [filter].
    - exists []. constructor.
    - destruct IH as [ts Hts]; [intros q Hq; apply Hfmt; right; exact Hq|]. destruct (_ && _); [|eauto].
      destruct (Hfmt p (or_introl eq_refl)) as [t Ht]. exists (t :: ts). constructor; auto. }
  destruct Hcc as [ts Hts]. pose proof Hts as Hcc. apply format_others_ok in Hcc.
  pose proof He2 as [c [k [Hc Hk]]].
  destruct (recommend_some s2 a (Some from) (replying_encrypted m) Hw2 He2) as [q Hq].
  set (s3 := after s2 (AHeader a me)) in *.
  assert (Hw3 : WF (drawn s3)) by (apply WF_drawn, WF_after; exact Hw2).
  assert (He3 : exists_acct (drawn s3) a) by (apply (after_exists s2 (AHeader a me) a) in He2; auto).
  assert (Hrun : exists s' rep, arun (bot_reply fb body m) s = (s', Ok (Some rep))).
  { unfold bot_reply. rewrite arun_bind, Hd. cbn [lift]. rewrite arun_ret. cbv beta iota.
    rewrite arun_bind, Hfa. cbv beta iota. rewrite arun_bind, Hp. cbv beta iota. rewrite arun_bind.
    assert (Hb : arun (if text_eqb (get_content_type m) (L "multipart/encrypted") then decrypt_mime a m ;;; Ret true else Ret false) s1 = (s2, Ok (replying_encrypted m))).
    { unfold replying_encrypted. destruct Hdec as [[D1 ->]|[D1 [-> [dm [infos D2]]]]].
      - apply text_eqb_neq in D1. rewrite D1. reflexivity.
      - rewrite D1, text_eqb_refl, arun_bind, answer_decrypt, D2 by auto. reflexivity. }
    rewrite Hb. cbv beta iota. rewrite arun_bind, arun_own_keyhandle, Hk. cbv beta iota.
    rewrite arun_bind, Hfrom, Hq. cbv beta iota. rewrite Hto. apply contains_occurs in Hoc. rewrite Hoc. cbn [negb].
    rewrite arun_bind. change (get_target_fulladr m) with (addressed m). rewrite Hcc. cbn [lift]. rewrite arun_ret. cbv beta iota.
    rewrite arun_bind, answer_header, Hh by auto. cbv beta iota. fold s3.
    assert (Hdr : forall X (f : text -> Z -> prog cop X), arun (id <- perform CUuid ;; now <- perform CTime ;; f id now) s3 =
      arun (f (uuid_hex (a_uuid s3)) (clock (a_tick s3))) (drawn s3)) by reflexivity.
    rewrite Hdr. cbv zeta. fold (bot_mail s3 me from ts m h body).
    destruct (otext_eqb (Some q) (Some (L "encrypt"))) eqn:Eq; [|eexists _, _; reflexivity].
    apply text_eqb_eq in Eq. subst q. specialize (Henc (recommended_logs s2 s2 a from _ _ Hw2 Hw2 He2 eq_refl Hq)).
    destruct (Henc (bot_mail s3 me from ts m h body) ts eq_refl Hts) as [em [khs Hem]].
    rewrite arun_bind, answer_enc, Hem by auto. cbv beta iota.
    pose proof (enc_facts _ _ _ _ _ _ Hw3 He3 Hem) as [? [? [? [? [? [? [_ [_ [_ [_ [_ [_ [_ [I6 I7]]]]]]]]]]]]]].
    rewrite arun_bind, (pgp_encrypted' em _ _ I7 I6). cbn [lift]. rewrite arun_ret. cbv beta iota.
    eexists _, _. reflexivity. }
  destruct Hrun as [s' [rep Hrun]]. exists rep. unfold answer. cbn [exec]. rewrite arun_bind, Hrun. reflexivity.
Qed.
End Cli3.
