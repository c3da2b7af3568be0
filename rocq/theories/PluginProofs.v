(** Plugins (C76). *)
From Verif Require Import Base PyStr Base64 Env Prog Chain Gpg Mime States Recommendation Account Cmdline Bot Fs Api Plugins Steps StepFacts Exec ApiScope Spec Obs
  PeerSpec PeerFacts RecSpec RecProofs HeaderSpec HeaderProofs CliSpec CliProofs2 TalkSpec GpgUse OutSpec OutProofs OutProofs2 Quiet CaseSpec CaseProofs PluginSpec.

Section PluginProofs.
Context {E : Env}.

(** the hooks *)
Lemma gossip_hook_asked ps d key m : exists r, told_gossip key ps (d, m) r /\
  gossip_hook ps d key m = match r with Ok (d', _) => Ok d' | Err e => Err e end.
Proof.
  revert d m. induction ps as [|p ps IH]; intros d m; [exists (Ok (d, m)); split; [constructor|reflexivity]|].
  cbn [gossip_hook]. destruct (on_gossip p d key m) as [[d' m']|e] eqn:Ep; cbn [rbind fst snd].
  - destruct (IH d' m') as [r [H1 H2]]. exists r. split; [eapply turn_next; [exact Ep|exact H1]|exact H2].
  - exists (Err e). split; [apply turn_stop; exact Ep|reflexivity].
Qed.
Lemma encryption_hook_asked ps from key d m : exists r, told_payload from key ps (d, m) r /\
  encryption_hook ps from key d m = match r with Ok (_, m') => Ok m' | Err e => Err e end.
Proof.
  revert d m. induction ps as [|p ps IH]; intros d m; [exists (Ok (d, m)); split; [constructor|reflexivity]|].
  cbn [encryption_hook]. destruct (before_encryption p from key d m) as [[d' m']|e] eqn:Ep; cbn [rbind fst snd].
  - destruct (IH d' m') as [r [H1 H2]]. exists r. split; [eapply turn_next; [exact Ep|exact H1]|exact H2].
  - exists (Err e). split; [apply turn_stop; exact Ep|reflexivity].
Qed.
Lemma in_turn_one {A} (call : plugin -> A -> result A) ps x r r' : in_turn call ps x r -> in_turn call ps x r' -> r = r'.
Proof. induction 1; intros H'; inversion H'; subst; try congruence. apply IHin_turn. congruence. Qed.
Lemma objected ps from key d m : objecting ps -> exists e, encryption_hook ps from key d m = Err e.
Proof.
  intros H. destruct (H from key d m) as [e He]. destruct (encryption_hook_asked ps from key d m) as [r [H1 H2]].
  pose proof (in_turn_one _ _ _ _ _ H1 He) as ->. exists e. exact H2.
Qed.

(** ** Without plugins nothing is different *)
Lemma encrypt_loop_plain a ys : forall khs keys clear s,
  match arun (foldM (encrypt_recipient_with a) ys (khs, keys, clear)) s with
  | (s', Ok (khs', _, clear')) => arun (foldM (encrypt_recipient a) ys (khs, clear)) s = (s', Ok (khs', clear'))
  | (s', Err e) => arun (foldM (encrypt_recipient a) ys (khs, clear)) s = (s', Err e)
  end.
Proof.
  induction ys as [|y ys IH]; intros khs keys clear s; cbn [foldM]; [reflexivity|].
  rewrite !arun_bind. unfold encrypt_recipient_with at 1, encrypt_recipient at 1 3. rewrite !arun_bind.
  destruct (arun (perform _) s) as [s1 [l|e]]; [|reflexivity].
  destruct (negb _).
  - rewrite !arun_bind. destruct (arun (own_config a) s1) as [s2 [c|e]]; [|reflexivity]. rewrite !arun_bind.
    destruct (arun (lift _) s2) as [s3 [b|e]]; [|reflexivity]. destruct b; [|reflexivity]. rewrite !arun_bind.
    destruct (arun (own_keyhandle a) s3) as [s4 [own|e]]; [|reflexivity]. unfold arun at 2 4 6. cbn [run]. apply IH.
  - rewrite !arun_bind. destruct (arun (lift _) s1) as [s2 [v|e]]; [|reflexivity]. unfold arun at 2 4 6. cbn [run]. apply IH.
Qed.
Lemma encrypt_plain a m to : peq (encrypt_mime_with [] a m to) (encrypt_mime a m to).
Proof.
  unfold encrypt_mime_with, encrypt_mime. apply peq_bind1. intros [].
  intros s. rewrite !arun_bind. pose proof (encrypt_loop_plain a (map (fun t => parse_email_addr (Some t)) to) [] [] (make_content_message_from_email m) s) as H.
  destruct (arun (foldM (encrypt_recipient_with a) _ _) s) as [s1 [[[khs keys] clear]|e]]; rewrite H; [|reflexivity].
  cbn [encryption_hook]. rewrite !arun_bind. destruct (arun (own_keyhandle a) s1) as [s2 [own|e]]; [|reflexivity]. rewrite arun_bind. reflexivity.
Qed.
Lemma outgoing_plain a m : peq (process_outgoing_with [] a m) (process_outgoing a m).
Proof.
  unfold process_outgoing_with, process_outgoing. apply peq_bind1. intros [eh m1]. cbv zeta. apply peq_bind1. intros [added m2]. apply peq_bind1. intros b.
  apply peq_bind; [|intros; apply peq_refl]. destruct b; [apply peq_refl|]. destruct (hget_all m2 (L "From")) as [|f [|? ?]]; try apply peq_refl.
  apply peq_bind1. intros r. destruct (otext_eqb eh _); [apply peq_refl|]. destruct (_ || _); [|apply peq_refl].
  apply peq_bind; [apply encrypt_plain|]. intros; apply peq_refl.
Qed.
Lemma incoming_plain a m i n : peq (process_incoming_with [] a m i n) (process_incoming a m i n).
Proof.
  unfold process_incoming_with, process_incoming. cbv zeta. apply peq_bind1. intros d. apply peq_bind1. intros date. apply peq_bind1. intros l.
  destruct (_ && _); [apply peq_refl|]. apply peq_bind1. intros p. apply peq_bind1. intros enc. apply peq_bind; [|intros; apply peq_refl].
  destruct enc; [|apply peq_refl]. apply peq_bind1. intros [dec x]. apply peq_bind1. intros gp. apply peq_bind1. intros key. apply peq_refl.
Qed.
Theorem c76_none : forall s c, answer_with [] s c = answer s c /\ after_with [] s c = after s c.
Proof.
  intros s c. assert (Hp : peq (exec_with [] c) (exec c)).
  { destruct c; try apply peq_refl; cbn [exec_with exec]; unfold with_account; apply peq_bind1; intros a.
    - apply peq_bind; [apply outgoing_plain|]. intros; apply peq_refl.
    - apply peq_bind; [apply encrypt_plain|]. intros; apply peq_refl. }
  unfold answer_with, after_with, answer, after. rewrite (Hp s). auto.
Qed.

(** ** Incoming mail *)
Definition told (ps : list plugin) (a : text) (m : msg) (n : bool) (s' : ast) (j : incoming) (r : result (option incoming)) : Prop :=
  r = Ok (Some j) /\ (n = true \/ is_encrypted m = Ok false) \/
  exists k data, n = false /\ keygen_of s' a = Some k /\ is_encrypted m = Ok true /\
    r = match gossip_hook ps (in_gossip j) (kg_kh k) (opened_as m data) with Ok d => Ok (Some (with_gossip j d)) | Err e => Err e end.
Lemma incoming_with_run ps a m i n s :
  fst (arun (process_incoming_with ps a m i n) s) = fst (arun (process_incoming a m i n) s) /\
  match snd (arun (process_incoming a m i n) s) with
  | Ok (Some j) => told ps a m n (fst (arun (process_incoming a m i n) s)) j (snd (arun (process_incoming_with ps a m i n) s))
  | r => snd (arun (process_incoming_with ps a m i n) s) = r
  end.
Proof.
  unfold process_incoming_with, process_incoming. cbv zeta.
  rewrite !arun_bind. destruct (arun (lift _) s) as [s1 [d|e]]; [|split; reflexivity]. rewrite !arun_bind. destruct (arun (effective_date d) s1) as [s2 [date|e]]; [|split; reflexivity].
  rewrite !arun_bind. destruct (arun (perform _) s2) as [s3 [l|e]]; [|split; reflexivity]. destruct (_ && _); [split; reflexivity|].
  rewrite !arun_bind. destruct (arun (process_autocrypt_header _ _ _ _ _ _) s3) as [s4 [p|e]]; [|split; reflexivity].
  rewrite !arun_bind. destruct (arun (if n then _ else _) s4) as [s5 [enc|e]] eqn:Ee; [|split; reflexivity].
  rewrite !arun_bind. 
  assert (He : if enc then n = false else n = true \/ is_encrypted m = Ok false).
  { destruct n; cbn in Ee; [injection Ee as _ <-; auto|]. apply arun_lift_ok in Ee as [_ Ee]. destruct enc; auto. }
  destruct enc; [|split; [reflexivity|left; auto]].
  rewrite !arun_bind. destruct (arun (decrypt_mime a m) s5) as [s6 [[dec infos]|e]] eqn:Ed; [|split; reflexivity].
  rewrite !arun_bind. destruct (arun (process_gossip_headers a dec date _) s6) as [s7 [gp|e]]; [|split; reflexivity].
  rewrite !arun_bind, arun_own_keyhandle. destruct (keygen_of s7 a) as [k|] eqn:Ek; [|split; reflexivity].
  apply decrypt_mime_ok in Ed as [E1 [_ [enc [data [_ [-> _]]]]]].
  destruct (gossip_hook ps gp (kg_kh k) (opened_as m data)) as [d'|e] eqn:Eh; unfold arun; cbn [lift run bind fst snd]; (split; [reflexivity|]);
    right; exists k, data; (split; [exact He|]); (split; [exact Ek|]); (split; [exact E1|]); cbn [in_gossip]; rewrite Eh; reflexivity.
Qed.
Lemma incoming_with_after ps s a m i n : after_with ps s (AIncoming a m i n) = after s (AIncoming a m i n).
Proof.
  unfold after_with, after. cbn [exec_with exec]. unfold with_account. rewrite !arun_bind. destruct (arun (get_account a true) s) as [s1 [b|e]]; [|reflexivity].
  rewrite !arun_bind. destruct (incoming_with_run ps b m i n s1) as [H _].
  destruct (arun (process_incoming_with ps b m i n) s1) as [s2 [x|e]], (arun (process_incoming b m i n) s1) as [s3 [y|e']]; cbn [fst] in *; exact H.
Qed.

Lemma WF_logs s s' : a_logs s' = a_logs s -> WF s -> WF s'.
Proof. intros Hl [H1 H2 H3]. split; unfold version_of, alog in *; rewrite ?Hl; assumption. Qed.
Lemma quiet_encrypt_recipient_with a st x : quiet (encrypt_recipient_with a st x). Proof. unfold encrypt_recipient_with. cbv zeta. quiets. Qed.
Lemma quiet_encrypt_mime_with ps a m to : quiet (encrypt_mime_with ps a m to).
Proof.
  unfold encrypt_mime_with. apply allowed_bind; [quiets|intros _]. apply allowed_bind; [apply allowed_foldM; intros; apply quiet_encrypt_recipient_with|].
  intros [[khs keys] cl]. cbv zeta. quiets.
Qed.
Lemma quiet_process_outgoing_with ps a m : quiet (process_outgoing_with ps a m).
Proof. pose proof quiet_encrypt_mime_with. unfold process_outgoing_with. cbv zeta. quiets. Qed.
Lemma WF_with_account {A} s a (f : text -> prog cop A) : (forall a, quiet (f a)) -> WF s -> WF (fst (arun (with_account a f) s)).
Proof.
  intros Hf Hw. destruct (exists_acct_dec s a) as [He|He].
  - rewrite arun_with_account by auto. eapply WF_logs; [apply quiet_logs, Hf|exact Hw].
  - rewrite arun_with_account_none by auto. cbn [fst].
    pose proof (WF_after s (AOwn a) Hw) as H. unfold after in H. cbn [exec] in H. rewrite arun_with_account_none in H by auto. exact H.
Qed.
Lemma reached_WF s : reached s -> WF s.
Proof.
  induction 1 as [|ps s c H IH]; [apply reachable_WF, reachable_init|].
  destruct c; try (apply (WF_after s _ IH)).
  - rewrite incoming_with_after. apply WF_after, IH.
  - unfold after_with. cbn [exec_with]. apply WF_with_account; [|exact IH]. intros. apply allowed_bind; [apply quiet_process_outgoing_with|intros; constructor].
  - unfold after_with. cbn [exec_with]. apply WF_with_account; [|exact IH]. intros. apply allowed_bind; [apply quiet_encrypt_mime_with|intros []; constructor].
Qed.
Theorem c76_incoming : forall ps s a m i n, reached s ->
  after_with ps s (AIncoming a m i n) = after s (AIncoming a m i n) /\
  match answer s (AIncoming a m i n) with
  | Ok (OIncoming (Some j)) =>
      answer_with ps s (AIncoming a m i n) = Ok (OIncoming (Some j)) /\ (n = true \/ is_encrypted m = Ok false) \/
      exists c kh data, n = false /\ own_of (after s (AIncoming a m i n)) a = Some (c, kh) /\ is_encrypted m = Ok true /\
        exists r, told_gossip kh ps (in_gossip j, opened_as m data) r /\
          answer_with ps s (AIncoming a m i n) = match r with Ok (d, _) => Ok (OIncoming (Some (with_gossip j d))) | Err e => Err e end
  | r => answer_with ps s (AIncoming a m i n) = r
  end.
Proof.
  intros ps s a m i n Hr. apply reached_WF in Hr as Hw. split; [apply incoming_with_after|].
  pose proof (WF_after s (AIncoming a m i n) Hw) as Hw'. pose proof (own_of_spec _ a Hw') as Ho.
  assert (Hex : exists_acct s a -> exists_acct (after s (AIncoming a m i n)) a) by (apply after_exists; [exact Hw|reflexivity]).
  revert Ho Hex. clear Hw'. unfold answer, answer_with, after. cbn [exec exec_with].
  destruct (exists_acct_dec s a) as [He|He].
  2: { rewrite !arun_with_account_none by auto. intros _ _. reflexivity. }
  rewrite !arun_with_account by auto. rewrite !arun_bind.
  destruct (incoming_with_run ps a m i n s) as [H1 H2].
  destruct (arun (process_incoming_with ps a m i n) s) as [s2 r2], (arun (process_incoming a m i n) s) as [s3 [[j|]|e']]; cbn [fst snd] in *; subst s2.
  2,3: subst r2; intros _ _; reflexivity.
  change (arun (Ret (OIncoming (Some j))) s3) with (s3, @Ok outcome (OIncoming (Some j))). cbn [fst snd].
  intros Ho Hex. destruct H2 as [[-> H2]|[k [data [H2 [H3 [H4 H5]]]]]]; [left; split; [reflexivity|exact H2]|].
  destruct (Hex He) as [c [k' [Hc _]]]. rewrite H3, Hc in Ho.
  right. exists c, (kg_kh k), data. split; [exact H2|]. split; [exact Ho|]. split; [exact H4|].
  destruct (gossip_hook_asked ps (in_gossip j) (kg_kh k) (opened_as m data)) as [r [Hr1 Hr2]]. exists r. split; [exact Hr1|]. rewrite H5, Hr2.
  destruct r as [[d m']|e]; reflexivity.
Qed.

(** ** Encryption *)
Definition keys_upto (s : ast) (a : text) (ys : list text) (keys : dict bytes) : Prop :=
  forall y key, dget keys y = Some key <-> In y ys /\ exists v, peer_of s a y = Some v /\ pv_keyhandle v <> [] /\ key = pv_keydata v.
Lemma encrypt_with_recipient_ok s a y st st' s' xs : WF s -> exists_acct s a -> keys_upto s a xs (snd (fst st)) ->
  arun (encrypt_recipient_with a st y) s = (s', Ok st') ->
  s' = s /\ keys_upto s a (xs ++ [y]) (snd (fst st')) /\ exists kh g, key_in_use s a y kh /\ gossip_about s a y g /\
    fst (fst st') = fst (fst st) ++ [kh] /\ m_body (snd st') = m_body (snd st) /\
    m_headers (snd st') = m_headers (snd st) ++ map (fun v => (L "Autocrypt-Gossip", v)) g.
Proof.
  intros Hw He Hx H. destruct st as [[khs keys] clear]. unfold encrypt_recipient_with in H. cbn [fst snd] in Hx.
  apply arun_bind_ok in H as [s1 [l [H1 H]]]. apply arun_read_ok in H1 as [-> ->].
  pose proof (peer_view_log s a y Hw He) as Hv. cbv zeta in H.
  destruct (public_keyhandle (alog s (peerstate_chain a y))) as [|k0 kr] eqn:Ek; cbn [nonempty negb] in H.
  - apply arun_bind_ok in H as [s1 [c [H1 H]]]. apply own_config_ok in H1 as [-> Hc].
    apply arun_bind_ok in H as [s1 [b [H1 H]]]. apply arun_lift_ok in H1 as [-> Hb].
    destruct b; [|discriminate].
    apply arun_bind_ok in H as [s1 [own [H1 H]]]. apply own_keyhandle_ok in H1 as [-> [k [Hk ->]]].
    apply arun_ret_ok in H as [-> ->]. split; [reflexivity|]. cbn [fst snd]. split.
    { intros z key. rewrite (Hx z key), in_app_iff. split; intros [H1 H2]; (split; [|exact H2]); [auto|]. destruct H1 as [H1|[->|[]]]; [exact H1|].
      destruct H2 as [v [H2 [H3 _]]]. exfalso. apply H3. rewrite Hv in H2. injection H2 as <-. exact Ek. }
    exists (kg_kh k), []. split; [|split; [|split; [|split]]]; try reflexivity.
    + eexists. split; [exact Hv|]. right. split; [exact Ek|]. exists c. split; [|exact Hb].
      rewrite own_of_spec by exact Hw. rewrite Hc, Hk. reflexivity.
    + eexists. split; [exact Hv|]. left. auto.
    + cbn [snd map]. rewrite app_nil_r. reflexivity.
  - apply arun_bind_ok in H as [s1 [v [H1 H]]]. apply arun_lift_ok in H1 as [-> Hm].
    apply arun_ret_ok in H as [-> ->]. split; [reflexivity|]. cbn [fst snd]. split.
    { intros z key. rewrite dget_dset, in_app_iff. destruct (text_eqb_spec z y) as [->|Hn].
      - split; [intros [= <-]|].
        + split; [right; left; reflexivity|]. eexists. split; [exact Hv|]. cbn [view_of pv_keyhandle pv_keydata]. rewrite Ek. split; [discriminate|reflexivity].
        + intros [_ [v' [H1 [_ ->]]]]. rewrite Hv in H1. injection H1 as <-. reflexivity.
      - rewrite (Hx z key). split; intros [H1 H2]; (split; [|exact H2]); [auto|]. destruct H1 as [H1|[->|[]]]; [exact H1|congruence]. }
    exists (k0 :: kr), [v]. split; [|split; [|split; [|split]]]; try reflexivity.
    + eexists. split; [exact Hv|]. left. cbn [view_of pv_keyhandle]. rewrite Ek. split; [discriminate | reflexivity].
    + eexists. split; [exact Hv|]. right. cbn [view_of pv_keyhandle pv_keydata]. rewrite Ek. split; [discriminate|]. eauto.
Qed.
Lemma encrypt_with_recipients_ok s a ys : WF s -> exists_acct s a -> forall xs st st' s', keys_upto s a xs (snd (fst st)) ->
  arun (foldM (encrypt_recipient_with a) ys st) s = (s', Ok st') ->
  s' = s /\ keys_upto s a (xs ++ ys) (snd (fst st')) /\
  exists khs gs, Forall2 (key_in_use s a) ys khs /\ Forall2 (gossip_about s a) ys gs /\
    fst (fst st') = fst (fst st) ++ khs /\ m_body (snd st') = m_body (snd st) /\
    m_headers (snd st') = m_headers (snd st) ++ map (fun v => (L "Autocrypt-Gossip", v)) (concat gs).
Proof.
  intros Hw He. induction ys as [|y ys IH]; intros xs st st' s' Hx H; cbn [foldM] in H.
  - apply arun_ret_ok in H as [-> ->]. split; [reflexivity|]. rewrite app_nil_r. split; [exact Hx|]. exists [], []. cbn [map concat]. rewrite !app_nil_r. auto.
  - apply arun_bind_ok in H as [s1 [st1 [H1 H]]].
    apply (encrypt_with_recipient_ok _ _ _ _ _ _ xs) in H1 as [-> [Hx1 [kh [g [K1 [K2 [K3 [K4 K5]]]]]]]]; auto.
    apply (IH (xs ++ [y])) in H as [-> [Hx2 [khs [gs [I1 [I2 [I3 [I4 I5]]]]]]]]; [|exact Hx1]. split; [reflexivity|].
    rewrite <- app_assoc in Hx2. split; [exact Hx2|].
    exists (kh :: khs), (g :: gs). split; [constructor; assumption|]. split; [constructor; assumption|].
    split; [rewrite I3, K3, <- app_assoc; reflexivity|]. split; [congruence|].
    rewrite I5, K5. cbn [concat]. rewrite map_app, <- app_assoc. reflexivity.
Qed.

Lemma encrypt_mime_with_ok ps s s' a m to em khs : WF s -> exists_acct s a ->
  arun (encrypt_mime_with ps a m to) s = (s', Ok (em, khs)) ->
  only_gpg s s' /\ sealed_with ps s s' a m to khs (m_body em) /\ m_headers em = (L "Content-Type", encrypted_ctype) :: outer_headers m.
Proof.
  intros Hw He H. destruct (exists_own s a Hw He) as [c [own Ho]].
  unfold encrypt_mime_with in H. apply arun_bind_ok in H as [s1 [[] [H1 H]]]. apply arun_assert_ok in H1 as [-> _].
  apply arun_bind_ok in H as [s1 [[[khs0 keys] clear] [H1 H]]].
  apply (encrypt_with_recipients_ok s a _ Hw He []) in H1 as [-> [Hkeys [khs1 [gs [K1 [K2 [K3 [K4 K5]]]]]]]].
  2: { intros y key. cbn. split; [discriminate|intros [[] _]]. }
  cbn [fst snd app] in K3, K4, K5, Hkeys. subst khs1.
  apply arun_bind_ok in H as [s1 [own' [H1 H]]]. apply own_keyhandle_ok in H1 as [-> [k [Hk ->]]].
  apply arun_bind_ok in H as [s1 [payload [H1 H]]]. apply arun_lift_ok in H1 as [-> Hpl].
  apply arun_bind_ok in H as [s1 [data [H1 H]]]. apply arun_lift_ok in H1 as [-> Hd].
  apply arun_bind_ok in H as [s1 [g [H1 H]]]. apply get_bingpg_ok in H1 as ->.
  apply arun_bind_ok in H as [s1 [enc [H1 H]]].
  cbv zeta in H. apply arun_ret_ok in H as [-> H]. injection H as -> ->.
  unfold gpg_encrypt, version_known in H1. apply arun_bind_ok in H1 as [sv [v [Hv H1]]]. apply arun_lift_ok in Hv as [-> _].
  apply arun_bind_ok in H1 as [s2 [[out err] [H1 H]]].
  apply arun_ret_ok in H as [-> ->]. apply gpg_outerr_ok in H1 as [G1 [G2 [r [_ G4]]]]. injection G4 as G4.
  destruct (wf_config s a c own Hw Ho) as [_ [k' [Hk' Hown]]]. rewrite Hk in Hk'. injection Hk' as <-. rewrite Hown in *.
  split; [exact G1|].
  destruct (transfer_headers m (make_message encrypted_ctype
      (PParts [make_message (L "application/pgp-encrypted") (PStr (L "version: 1")); make_message (L "application/octet-stream") (PBytes out)]))) as [T1 T2].
  split; [|rewrite T2; reflexivity].
  split. { clear - K1. revert khs0 K1. induction to as [|x to IH]; intros khs0 K1; inversion K1; subst; constructor; auto. }
  assert (exists keys', told_payload (from_addr m) own ps (keys, clear) (Ok (keys', payload))) as [keys' Hpl'].
  { destruct (encryption_hook_asked ps (from_addr m) own keys clear) as [r0 [R1 R2]]. unfold from_addr in *. rewrite Hpl in R2.
    destruct r0 as [[keys' m']|e]; [|discriminate]. injection R2 as <-. exists keys'. exact R1. }
  exists c, own, gs, keys, clear, keys', payload, data, out. split; [exact Ho|].
  split. { clear - K2. revert gs K2. induction to as [|x to IH]; intros gs K2; inversion K2; subst; constructor; auto. }
  split. { intros y key. rewrite (Hkeys y key), in_map_iff. split.
    - intros [[x [Hx1 Hx2]] [w [Hw1 Hw2]]]. exists x, w. split; [exact Hx2|]. split; [symmetry; exact Hx1|]. auto.
    - intros [x [w [Hx [Hy [Hw1 Hw2]]]]]. split; [exists x; split; [symmetry; exact Hy|exact Hx]|]. exists w. auto. }
  destruct (content_headers m) as [C1 C2].
  split; [rewrite K4; exact C1|]. split; [rewrite K5, C2; reflexivity|]. split; [exact Hpl'|]. split; [exact Hd|]. split.
  - eexists _, _, r. split; [eexists; split; [exact G2|left; reflexivity]|]. split; [apply encrypt_argv_command | exact G4].
  - rewrite T1. reflexivity.
Qed.
Theorem c76_encrypt : forall ps s a m to em khs, reached s -> answer_with ps s (AEncrypt a m to) = Ok (OEncrypted em khs) ->
  is_encrypted em = Ok true /\ m_headers em = (L "Content-Type", encrypted_ctype) :: outer_headers m /\
  sealed_with ps s (after_with ps s (AEncrypt a m to)) a m to khs (m_body em).
Proof.
  intros ps s a m to em khs Hr. apply reached_WF in Hr as Hw. unfold answer_with, after_with. cbn [exec_with].
  destruct (exists_acct_dec s a) as [He|He]; [|rewrite arun_with_account_none by auto; discriminate].
  rewrite arun_with_account by auto. rewrite arun_bind. destruct (arun (encrypt_mime_with ps a m to) s) as [s1 [[e1 k1]|e]] eqn:Ee; cbn; [|discriminate].
  intros [= <- <-]. apply encrypt_mime_with_ok in Ee as [_ [H1 H2]]; auto. split; [|auto].
  destruct H1 as (_ & c & own & gs & keys & clear & keys' & payload & data & enc & _ & _ & _ & _ & _ & _ & _ & _ & B1). eapply pgp_encrypted'; eauto.
Qed.

(** ** Outgoing mail *)
Lemma recommended_WF s a c kh xs reply : WF s -> own_of s a = Some (c, kh) ->
  exists r, recommended s a xs reply r /\ overall s a (cf_pref c) reply (map norm xs) r.
Proof.
  intros Hw Ho.
  assert (He : exists_acct s a) by (apply has_account_exists; [exact Hw|unfold has_account; congruence]).
  assert (Hc : config_of s a = Some c).
  { rewrite own_of_spec in Ho by exact Hw. destruct (config_of s a), (keygen_of s a); congruence. }
  destruct (recommend_run s a c (map Some xs) reply None Hw Hc) as [r [H1 H2]]. rewrite asked_all in H2.
  unfold recommended, answer. cbn [exec]. rewrite arun_with_account by auto. rewrite arun_bind, H1. cbn [fst snd].
  exists r. split; [reflexivity|exact H2].
Qed.
Definition way_with (ps : list plugin) (s s' : ast) (a : text) (m : msg) (o : outgoing) (s1 : ast) (m2 : msg) : Prop :=
  (is_encrypted m = Ok true /\ out_msg o = m2 /\ s' = s1) \/
  (is_encrypted m = Ok false /\ exists f r, hget_all m (L "From") = [f] /\ recommended s a (others m) false r /\
    ((out_msg o = m2 /\ s' = s1 /\ (control m = Some (L "no") \/ (r <> L "encrypt" /\ control m <> Some (L "yes")))) \/
     (control m <> Some (L "no") /\ (r = L "encrypt" \/ (r <> L "disable" /\ control m = Some (L "yes"))) /\
      exists khs, arun (encrypt_mime_with ps a m2 (everyone m)) s1 = (s', Ok (out_msg o, khs))))).
Lemma outgoing_with_ok ps s s' a m o : WF s -> exists_acct s a -> arun (process_outgoing_with ps a m) s = (s', Ok o) ->
  (control m = None \/ exists w, control m = Some w /\ In w [L "opportunistic"; L "yes"; L "no"]) /\
  out_acct o = a /\ out_addr o = from_addr m /\
  exists s1 m2, WF s1 /\ only_gpg s s1 /\ prepared m (out_added o) m2 /\
    ((hget_all m (L "Autocrypt") <> [] /\ out_added o = None /\ s1 = s) \/
     (hget_all m (L "Autocrypt") = [] /\ exists v, out_added o = Some v /\ arun (make_ac_header a (from_addr m)) s = (s1, Ok v))) /\
    way_with ps s s' a m o s1 m2.
Proof.
  intros Hw He H.
  destruct (exists_own s a Hw He) as [c [own Ho]].
  destruct (wf_config s a c own Hw Ho) as [Hc [k [Hk Hkh]]].
  unfold process_outgoing_with in H. apply arun_bind_ok in H as [s0 [[enc m1] [H1 H]]].
  assert (Hctl : s0 = s /\ enc = control m /\ m1 = hdel m (L "ENCRYPT") /\
    (control m = None \/ exists w, control m = Some w /\ In w [L "opportunistic"; L "yes"; L "no"])).
  { unfold control. destruct (hget m (L "ENCRYPT")) as [h|] eqn:Eh.
    - apply arun_bind_ok in H1 as [s1 [[] [H1 H2]]]. apply arun_assert_ok in H1 as [-> Hin].
      apply arun_ret_ok in H2 as [-> H2]. injection H2 as -> ->. cbn [option_map].
      split; [reflexivity|]. split; [reflexivity|]. split; [reflexivity|]. right. exists (strip h). split; [reflexivity|]. apply mem_text_In. exact Hin.
    - apply arun_ret_ok in H1 as [-> H2]. injection H2 as -> ->.
      split; [reflexivity|]. split; [reflexivity|]. split; [|left; reflexivity].
      unfold hdel. rewrite hget_hd in Eh. destruct m as [hs b]. cbn [m_headers m_body]. f_equal. symmetry.
      unfold hget_all in Eh. cbn [m_headers] in Eh. clear - Eh.
      induction hs as [|[k v] hs IH]; [reflexivity|]. cbn [filter fst] in *. destruct (text_eqb (lower k) (lower (L "ENCRYPT"))); [discriminate|].
      cbn [negb]. f_equal. apply IH. exact Eh. }
  destruct Hctl as [-> [-> [-> Hctl]]]. split; [exact Hctl|]. cbv zeta in H.
  assert (Hfrom : hget_all (hdel m (L "ENCRYPT")) (L "From") = hget_all m (L "From")) by (apply hget_all_hdel; discriminate).
  assert (Hfa : parse_email_addr (hget (hdel m (L "ENCRYPT")) (L "From")) = from_addr m).
  { unfold from_addr. rewrite !hget_hd, Hfrom. reflexivity. }
  clear H1. rewrite Hfa in H. apply arun_bind_ok in H as [s1 [[added m2] [H1 H]]].
  assert (Hadd : WF s1 /\ only_gpg s s1 /\ prepared m added m2 /\
    ((hget_all m (L "Autocrypt") <> [] /\ added = None /\ s1 = s) \/
     (hget_all m (L "Autocrypt") = [] /\ exists v, added = Some v /\ arun (make_ac_header a (from_addr m)) s = (s1, Ok v)))).
  { rewrite hin_all, (hget_all_hdel m (L "Autocrypt")) in H1 by discriminate.
    destruct (hget_all m (L "Autocrypt")) as [|v0 vs] eqn:Ea; cbn [nonempty] in H1.
    - apply arun_bind_ok in H1 as [s2 [v [H1 H2]]]. apply arun_ret_ok in H2 as [-> H2]. injection H2 as -> ->.
      pose proof H1 as H1'. apply make_ac_header_ok in H1' as [G1 _].
      split; [|split; [exact G1|split; [split; reflexivity|right; split; [reflexivity|eauto]]]].
      apply (WF_logs s); [apply G1|exact Hw].
    - apply arun_ret_ok in H1 as [-> H1]. injection H1 as -> ->.
      split; [exact Hw|]. split; [apply only_gpg_refl|]. split; [split; [reflexivity|]; symmetry; apply app_nil_r|].
      left. split; [discriminate|auto]. }
  destruct Hadd as [Hw1 [Hg1 [Hp Hadd]]].
  clear H1. apply arun_bind_ok in H as [s2 [b [H1 H]]]. apply arun_lift_ok in H1 as [-> Hb].
  rewrite (prepared_encrypted m added m2 Hp) in Hb.
  apply arun_bind_ok in H as [s2 [m3 [H1 H]]]. apply arun_ret_ok in H as [-> ->]. cbn [out_acct out_addr out_added out_msg].
  split; [reflexivity|]. split; [reflexivity|]. exists s1, m2. do 4 (split; [assumption|]).
  unfold way_with. cbn [out_msg]. destruct b.
  - left. apply arun_ret_ok in H1 as [-> ->]. auto.
  - right. split; [exact Hb|]. rewrite (prepared_hget_all m added m2 (L "From") Hp) in H1 by discriminate.
    destruct (hget_all m (L "From")) as [|f [|? ?]] eqn:Ef; try (exfalso; exact (arun_raise_ok _ _ _ _ H1)).
    assert (Hff : parse_email_addr (Some f) = from_addr m) by (unfold from_addr; rewrite hget_hd, Ef; reflexivity).
    assert (Ht : get_target_emailadr m2 = targets m).
    { unfold get_target_emailadr, get_target_fulladr, targets. rewrite !(prepared_hget_all m added m2 _ Hp) by discriminate. reflexivity. }
    rewrite Hff, Ht in H1. fold (everyone m) in H1.
    assert (Hc1 : config_of s1 a = Some c) by (unfold config_of; rewrite (only_gpg_log s s1 _ Hg1); exact Hc).
    destruct (recommend_run s1 a c (map Some (targets m)) false (Some (from_addr m)) Hw1 Hc1) as [r [R1 R2]].
    rewrite (asked_others m f Ef) in R2. apply (overall_logs s s1) in R2; [|apply Hg1].
    destruct (recommended_WF s a c own (others m) false Hw Ho) as [r' [Q1 Q2]].
    pose proof (overall_fun _ _ _ _ _ _ _ R2 Q2) as <-.
    apply arun_bind_ok in H1 as [s3 [r' [H1 H2]]]. rewrite R1 in H1. injection H1 as <- <-.
    exists f, r. split; [reflexivity|]. split; [exact Q1|].
    destruct (otext_eqb (control m) (Some (L "no"))) eqn:Eno.
    + apply otext_eqb_spec in Eno. apply arun_ret_ok in H2 as [-> ->]. auto.
    + apply otext_eqb_false in Eno.
      destruct (otext_eqb (Some r) (Some (L "encrypt"))
        || (negb (otext_eqb (Some r) (Some (L "disable"))) && otext_eqb (control m) (Some (L "yes")))) eqn:Ed.
      * right. split; [exact Eno|]. split.
        { apply orb_prop in Ed as [Ed|Ed]; [left; apply otext_eqb_spec in Ed; congruence|].
          apply andb_prop in Ed as [E1 E2]. apply negb_true_iff, otext_eqb_false in E1. apply otext_eqb_spec in E2. right. split; congruence. }
        apply arun_bind_ok in H2 as [s4 [[em khs] [H2 H3]]]. apply arun_ret_ok in H3 as [-> ->]. exists khs. exact H2.
      * apply orb_false_iff in Ed as [E1 E2]. apply otext_eqb_false in E1.
        destruct (otext_eqb (control m) (Some (L "yes"))) eqn:Ey; [discriminate|].
        apply otext_eqb_false in Ey. apply arun_ret_ok in H2 as [-> ->]. left. split; [reflexivity|]. split; [reflexivity|]. right. split; congruence.
Qed.
Lemma no_objection ps a m to s s' r : objecting ps -> arun (encrypt_mime_with ps a m to) s = (s', Ok r) -> False.
Proof.
  intros Ho H. unfold encrypt_mime_with in H. apply arun_bind_ok in H as [s1 [[] [_ H]]].
  apply arun_bind_ok in H as [s2 [[[khs keys] clear] [_ H]]]. apply arun_bind_ok in H as [s3 [own [_ H]]].
  apply arun_bind_ok in H as [s4 [pl [H _]]]. apply arun_lift_ok in H as [_ H].
  destruct (objected ps (parse_email_addr (hget m (L "From"))) own keys clear Ho) as [e He]. congruence.
Qed.
Lemma answer_outgoing_with ps s a m o : reached s -> answer_with ps s (AOutgoing a m) = Ok (OOutgoing o) ->
  exists_acct s a /\ arun (process_outgoing_with ps a m) s = (after_with ps s (AOutgoing a m), Ok o).
Proof.
  intros Hr. pose proof (reached_WF s Hr) as Hw. unfold answer_with, after_with. cbn [exec_with].
  destruct (exists_acct_dec s a) as [He|He].
  - rewrite arun_with_account by auto. rewrite arun_bind. destruct (arun (process_outgoing_with ps a m) s) as [s1 [o1|e]]; cbn; [|discriminate].
    intros [= <-]. auto.
  - rewrite arun_with_account_none by auto. discriminate.
Qed.
Lemma seal_with ps s s' a m added em s1 m2 khs : WF s -> exists_acct s a -> WF s1 -> only_gpg s s1 -> prepared m added m2 ->
  arun (encrypt_mime_with ps a m2 (everyone m)) s1 = (s', Ok (em, khs)) ->
  sealed_with ps s s' a m (everyone m) khs (m_body em) /\
  m_headers em = (L "Content-Type", encrypted_ctype) :: without (L "ENCRYPT") (outer_headers m) ++ match added with Some v => [(L "Autocrypt", v)] | None => [] end.
Proof.
  intros Hw He Hw1 Hg Hp H.
  assert (Hs : forall y, peer_of s1 a y = peer_of s a y /\ own_of s1 a = own_of s a).
  { intros y. destruct (same_peer s s1 a y Hw Hw1 (proj1 Hg) He) as [_ H1]. exact H1. }
  assert (He1 : exists_acct s1 a).
  { destruct He as [c [k [Hc Hk]]]. exists c, k. unfold config_of, keygen_of in *. rewrite !(only_gpg_log s s1 _ Hg). auto. }
  apply encrypt_mime_with_ok in H as [_ [(K & c & own & gs & keys & clear & keys' & payload & data & enc & I0 & I1 & I2 & I3 & I4 & I5 & I6 & I7 & I8) Hh]]; auto.
  split; [|rewrite Hh, (prepared_outer m _ m2 Hp); reflexivity].
  split. { eapply Forall2_mono; [|exact K]. intros x kh [v [Hv Hk]]. exists v. rewrite (proj1 (Hs _)) in Hv. rewrite (proj2 (Hs [])) in Hk. auto. }
  exists c, own, gs, keys, clear, keys', payload, data, enc. split; [rewrite (proj2 (Hs [])) in I0; exact I0|].
  split. { eapply Forall2_mono; [|exact I1]. intros x g [v [Hv Hk]]. exists v. rewrite (proj1 (Hs _)) in Hv. auto. }
  split. { intros y key. rewrite (I2 y key). split; intros [x [v [J1 [J2 [J3 J4]]]]]; exists x, v; rewrite (proj1 (Hs _)) in *; auto. }
  split; [rewrite I3; apply Hp|]. split; [rewrite I4, (prepared_inner m _ m2 Hp); reflexivity|].
  split. { unfold from_addr in *. rewrite !hget_hd, (prepared_hget_all m added m2 _ Hp) in I5 by discriminate. rewrite hget_hd. exact I5. }
  split; [exact I6|].
  split; [|exact I8]. destruct I7 as [home [argv [r [R1 [R2 R3]]]]]. exists home, argv, r. split; [|auto].
  eapply ran_here; [exact Hg|exact R1|apply only_gpg_refl].
Qed.
Theorem c76_sealed : forall ps s a m o, reached s -> answer_with ps s (AOutgoing a m) = Ok (OOutgoing o) ->
  control m = Some (L "yes") \/ (control m <> Some (L "no") /\ recommended s a (others m) false (L "encrypt")) ->
  is_encrypted (out_msg o) = Ok true /\
  ((is_encrypted m = Ok true /\ prepared m (out_added o) (out_msg o)) \/
   m_headers (out_msg o) = (L "Content-Type", encrypted_ctype) :: without (L "ENCRYPT") (outer_headers m)
     ++ match out_added o with Some v => [(L "Autocrypt", v)] | None => [] end /\
   exists to khs, (forall x, In x to <-> In x (targets m) \/ x = from_addr m) /\
     sealed_with ps s (after_with ps s (AOutgoing a m)) a m to khs (m_body (out_msg o))).
Proof.
  intros ps s a m o Hr H Hc. pose proof (reached_WF s Hr) as Hw. apply answer_outgoing_with in H as [He H]; [|exact Hr].
  apply outgoing_with_ok in H as [_ [_ [_ [s1 [m2 [Hr1 [Hg [Hp [_ Hway]]]]]]]]]; [|exact Hw|exact He].
  destruct Hway as [[H1 [H2 H3]]|[H1 [f [r [H2 [H3 [[H4 [H5 H6]]|[H4 [H5 [khs H6]]]]]]]]]].
  - rewrite H2, (prepared_encrypted m _ m2 Hp). split; [exact H1|]. left. split; [exact H1|exact Hp].
  - exfalso. destruct Hc as [Hc|[Hc1 Hc2]].
    + destruct H6 as [H6|[_ H6]]; [rewrite Hc in H6; discriminate|congruence].
    + destruct H6 as [H6|[H6 _]]; [congruence|]. apply H6. eapply recommended_fun; eauto.
  - apply (seal_with ps s _ a m (out_added o)) in H6 as [O1 O2]; auto.
    split.
    { destruct O1 as (_ & c & own & gs & keys & clear & keys' & payload & data & enc & _ & _ & _ & _ & _ & _ & _ & _ & B1). eapply pgp_encrypted'; eauto. }
    right. split; [exact O2|]. exists (everyone m), khs. split; [intros x; apply In_everyone|exact O1].
Qed.
Theorem c76_clear : forall ps s a m o, reached s -> answer_with ps s (AOutgoing a m) = Ok (OOutgoing o) ->
  control m = Some (L "no") \/
  (control m <> Some (L "yes") /\ exists r, recommended s a (others m) false r /\ r <> L "encrypt") ->
  prepared m (out_added o) (out_msg o) /\
  forall g, ran s (after_with ps s (AOutgoing a m)) g -> gc_in g = None.
Proof.
  intros ps s a m o Hr H Hc. pose proof (reached_WF s Hr) as Hw. apply answer_outgoing_with in H as [He H]; [|exact Hr].
  apply outgoing_with_ok in H as [_ [_ [_ [s1 [m2 [Hr1 [Hg [Hp [Hadd Hway]]]]]]]]]; [|exact Hw|exact He].
  assert (Hs : out_msg o = m2 /\ after_with ps s (AOutgoing a m) = s1).
  { destruct Hway as [[H1 [H2 H3]]|[H1 [f [r [H2 [H3 [[H4 [H5 H6]]|[H4 [H5 [khs H6]]]]]]]]]]; auto.
    exfalso. destruct Hc as [Hc|[Hc [q [Hq Hne]]]]; [congruence|].
    pose proof (recommended_fun _ _ _ _ _ _ H3 Hq). destruct H5 as [H5|[_ H5]]; congruence. }
  destruct Hs as [-> ->]. split; [exact Hp|].
  intros g [l [Hl Hi]]. destruct Hadd as [[_ [_ ->]]|[_ [v [_ Hv]]]].
  - assert (Hn : l = []) by (apply (app_inv_tail (a_trace s)); symmetry; exact Hl). rewrite Hn in Hi. destruct Hi.
  - apply make_ac_header_ok in Hv as [_ [[g0 [Ht Hg0]] _]]. rewrite Ht in Hl. apply app_inv_tail in Hl. rewrite <- Hl in Hi.
    destruct Hi as [<-|[]]. exact Hg0.
Qed.

(** ** Objections *)
Lemma asking_ran K {A} (p : prog cop A) s g : asking K p -> ran s (fst (arun p s)) g -> exists k, In k K /\ asks g k.
Proof.
  intros Hp [l [Ht Hi]]. destruct (asking_trace K p s Hp) as [new [H1 H2]]. rewrite H1 in Ht. apply app_inv_tail in Ht. subst l.
  rewrite Forall_forall in H2. auto.
Qed.
Ltac ask := repeat match goal with
  | |- asking _ (bind (if true then Ret ?a else _) ?f) => change (bind (if true then Ret a else _) f) with (f a); cbv beta iota
  | |- asking _ (bind (if false then _ else Ret ?a) ?f) => change (bind (if false then _ else Ret a) f) with (f a); cbv beta iota
  | |- asking _ (bind (Ret ?a) ?f) => change (bind (Ret a) f) with (f a); cbv beta iota
  | |- asking _ (bind _ _) => apply ask_bind; [|intros ?]
  | |- asking _ (lift _) => apply ask_lift
  | |- asking _ (assert_ _) => apply ask_assert
  | |- asking _ (perform _) => apply allowed_perform; exact I
  | |- asking _ (Ret _) => apply ask_ret
  | |- asking _ (Raise _) => apply ask_raise
  | |- asking _ (mapM _ _) => apply ask_mapM; intros ?
  | |- asking _ (foldM _ _ _) => apply ask_foldM; intros ? ?
  | |- asking _ (match ?x with _ => _ end) => destruct x
  | |- asking _ (let (_, _) := ?x in _) => destruct x
  | |- asking _ (let _ := _ in _) => cbv zeta
  | |- asking _ _ => solve [auto 3 with ask]
  end.
Hint Resolve ask_list_pub ask_pub ask_encrypt ask_decrypt ask_own_config ask_own_keyhandle ask_bingpg ask_ensure_init ask_get_account
  ask_update ask_update_gossip ask_recommend ask_import_key ask_decrypt_mime ask_header : ask.
Lemma ask_encrypt_with K ps a m to : In KEncrypt K -> asking K (encrypt_mime_with ps a m to).
Proof. intros H. unfold encrypt_mime_with, encrypt_recipient_with. cbv zeta. ask. Qed.
Lemma ask_outgoing_with K ps a m : (forall m to, asking K (encrypt_mime_with ps a m to)) -> In KExport K -> asking K (process_outgoing_with ps a m).
Proof. intros H1 H2. pose proof (fun x => ask_header K a x H2). unfold process_outgoing_with. cbv zeta. ask; auto. Qed.
Lemma ask_incoming_with K ps a m ign nd : incl (for_incoming nd) K -> asking K (process_incoming_with ps a m ign nd).
Proof.
  intros Hi. assert (In KImport K) by (apply Hi; cbn; auto). assert (In KListPublic K) by (apply Hi; cbn; auto).
  unfold process_incoming_with, effective_date, process_autocrypt_header. destruct nd.
  - ask.
  - assert (In KDecrypt K) by (apply Hi; cbn; auto). unfold process_gossip_headers, gossip_recipient. ask.
Qed.
Theorem c76_asks : forall ps s c g, ran s (after_with ps s c) g -> exists k, In k (may_ask c) /\ asks g k.
Proof.
  intros ps s c g. apply asking_ran. destruct c; try lazymatch goal with
    | |- asking _ (exec_with _ (AIncoming _ _ _ _)) => fail
    | |- asking _ (exec_with _ (AOutgoing _ _)) => fail
    | |- asking _ (exec_with _ (AEncrypt _ _ _)) => fail
    | |- asking _ (exec_with _ ?c) => exact (ask_exec c)
    end; cbn [exec_with may_ask]; unfold with_account.
  - ask. apply ask_incoming_with, incl_refl.
  - ask. apply ask_outgoing_with; [intros; apply ask_encrypt_with|]; cbn; auto.
  - ask. apply ask_encrypt_with. cbn; auto.
Qed.
Lemma ask_objected K ps a m to : objecting ps -> asking K (encrypt_mime_with ps a m to).
Proof.
  intros H. unfold encrypt_mime_with. apply ask_bind; [apply ask_assert|intros _]. apply ask_bind; [unfold encrypt_recipient_with; ask|].
  intros [[khs keys] clear]. apply ask_bind; [ask|]. intros own. destruct (objected ps (parse_email_addr (hget m (L "From"))) own keys clear H) as [e ->]. constructor.
Qed.
Theorem c76_objection : forall ps s a m to, objecting ps ->
  (forall g, ran s (after_with ps s (AEncrypt a m to)) g -> False) /\
  (forall g, ran s (after_with ps s (AOutgoing a m)) g -> asks g KExport) /\
  (forall em khs, answer_with ps s (AEncrypt a m to) <> Ok (OEncrypted em khs)) /\
  (forall o, reached s -> answer_with ps s (AOutgoing a m) = Ok (OOutgoing o) -> prepared m (out_added o) (out_msg o)).
Proof.
  intros ps s a m to Ho. split; [|split; [|split]].
  - intros g Hg. assert (Hk : exists k, In k [] /\ asks g k); [|destruct Hk as [k [[] _]]].
    revert Hg. apply asking_ran. cbn [exec_with]. unfold with_account. ask. apply ask_objected, Ho.
  - intros g Hg. assert (Hk : exists k, In k [KExport] /\ asks g k); [|destruct Hk as [k [[<-|[]] Hk]]; exact Hk].
    revert Hg. apply asking_ran. cbn [exec_with]. unfold with_account. ask. apply ask_outgoing_with; [intros; apply ask_objected, Ho|cbn; auto].
  - intros em khs. unfold answer_with. cbn [exec_with]. unfold with_account. rewrite arun_bind. destruct (arun (get_account a true) s) as [s1 [b|e]]; [|discriminate].
    rewrite arun_bind. destruct (arun (encrypt_mime_with ps b m to) s1) as [s2 [[em' khs']|e]] eqn:Ee; [|discriminate]. exfalso.
    eapply no_objection; eauto.
  - intros o Hr H. pose proof (reached_WF s Hr) as Hw. apply answer_outgoing_with in H as [He H]; [|exact Hr].
    apply outgoing_with_ok in H as [_ [_ [_ [s1 [m2 [Hr1 [Hg [Hp [Hadd Hway]]]]]]]]]; [|exact Hw|exact He].
    destruct Hway as [[H1 [H2 H3]]|[H1 [f [r [H2 [H3 [[H4 [H5 H6]]|[H4 [H5 [khs H6]]]]]]]]]]; try (rewrite ?H2, ?H4; exact Hp).
    exfalso. eapply no_objection; eauto.
Qed.
End PluginProofs.
