(** Proofs of C39-C42: keys, deletion, creation and settings of accounts. *)
From Verif Require Import Base PyStr Env Prog Chain Gpg Mime States Recommendation Account Cmdline Bot Fs Api Steps StepFacts Exec ApiScope
  Spec PeerSpec OutSpec AcctSpec Obs PeerFacts Quiet OutProofs AcctFacts.
From Coq Require Import Sorting.Sorted.

Section AcctProofs.
Context {E : Env}.

Lemma WF_reachable s : reachable s -> WF s.
Proof. apply reachable_WF. Qed.

(** ** C39 *)
Lemma step_own s l a c k : WF s -> guard s l -> ~ removes a l -> config_of s a = Some c -> keygen_of s a = Some k ->
  keygen_of (step l s) a = Some k /\
  exists c', config_of (step l s) a = Some c' /\ cf_mode c' = cf_mode c /\ cf_name c' = cf_name c /\ (c' = c \/ l = LCfg a c').
Proof.
  intros Hw Hg Hr Hc Hk.
  assert (He : exists_acct s a) by (exists c, k; auto). pose proof (exists_isalnum s a Hw He) as Ha.
  assert (Hn : cf_name c = a).
  { destruct (wf_own s Hw a) as [H|[_ H]]; [unfold config_of in Hc; rewrite H in Hc; discriminate|].
    apply own_ok_config in H. destruct H as [c0 [H1 [_ H2]]]. unfold config_of in Hc. congruence. }
  assert (Hf : ~ writes l (own_chain a) -> keygen_of (step l s) a = Some k /\
     exists c', config_of (step l s) a = Some c' /\ cf_mode c' = cf_mode c /\ cf_name c' = cf_name c /\ (c' = c \/ l = LCfg a c')).
  { intros H. unfold keygen_of, config_of. rewrite step_frame by exact H. split; [exact Hk|]. exists c. auto. }
  destruct l; try (apply Hf; simpl; intros H; first [exact H | eapply own_peer; eauto; fail | eapply own_oob; eauto; fail | eapply own_mgr; eauto; fail]).
  - destruct (text_eqb_spec acct a) as [->|Hne]; [|apply Hf; simpl; intros H; apply own_chain_inj in H; congruence].
    change (step (LCfg a c0) s) with (app_log s (own_chain a) (ECfg c0)). rewrite keygen_app_cfg, config_app_cfg.
    split; [exact Hk|]. exists c0. simpl in Hg. destruct Hg as [_ [_ [_ [H1 [H2|[c1 [H2 H3]]]]]]]; [congruence|].
    rewrite Hc in H2. injection H2 as <-. do 3 (split; [congruence|]). right; reflexivity.
  - destruct (text_eqb_spec acct a) as [->|Hne]; [|apply Hf; simpl; intros H; apply own_chain_inj in H; congruence].
    simpl in Hg. destruct Hg as [_ [H _]]. congruence.
  - apply Hf. simpl. rewrite match_account_own by exact Ha. intros H. apply text_eqb_eq in H. apply Hr. right. congruence.
  - exfalso. apply Hr. left. reflexivity.
Qed.
Lemma path_own s ls s' a c k : path s ls s' -> WF s -> (forall l, In l ls -> ~ removes a l) ->
  config_of s a = Some c -> keygen_of s a = Some k ->
  keygen_of s' a = Some k /\
  exists c', config_of s' a = Some c' /\ cf_mode c' = cf_mode c /\ cf_name c' = cf_name c /\ (c' = c \/ In (LCfg a c') ls).
Proof.
  intros Hp. revert c. induction Hp as [s|s l ls s' Hg Hp IH]; intros c Hw Hr Hc Hk.
  - split; [exact Hk|]. exists c. auto.
  - destruct (step_own s l a c k Hw Hg (Hr l (or_introl eq_refl)) Hc Hk) as [Hk1 [c1 [Hc1 [Hm1 [Hn1 H1]]]]].
    destruct (IH c1 (step_WF s Hw l Hg) (fun l0 Hl0 => Hr l0 (or_intror Hl0)) Hc1 Hk1) as [Hk2 [c2 [Hc2 [Hm2 [Hn2 H2]]]]].
    split; [exact Hk2|]. exists c2. do 3 (split; [congruence|]).
    destruct H2 as [->|H2]; [destruct H1 as [->| ->]; [left; reflexivity|right; left; reflexivity]|right; right; exact H2].
Qed.
Lemma own_of_some s a c kh : WF s -> own_of s a = Some (c, kh) <-> config_of s a = Some c /\ exists k, keygen_of s a = Some k /\ kg_kh k = kh.
Proof.
  intros Hw. rewrite own_of_spec by auto. destruct (config_of s a) as [c0|], (keygen_of s a) as [k0|]; split;
    try discriminate; try (intros [H [k [H1 H2]]]; congruence).
  intros [= <- <-]. eauto.
Qed.

Lemma scope_cfg c a c' : api_scope c (LCfg a c') -> modifies a c = true \/ exists mode, creates c = Some (a, mode) /\ cf_mode c' = mode.
Proof.
  intros H. destruct c; simpl in H; unfold sc_a, sc_gpg, sc_any, sc_mod in H; try discriminate; try tauto;
    try (destruct H as [H|H]; try discriminate; try tauto; fail).
  - destruct H as [-> ->]. right. simpl. eauto.
  - left. simpl. apply text_eqb_eq. symmetry. apply H.
  - destruct H as [-> ->]. right. simpl. eauto.
  - destruct H as [H|[]]. left. simpl. apply text_eqb_eq. symmetry. apply H.
  - destruct H as [_ H]; discriminate.
  - destruct H as [H|[b [_ H]]]; [discriminate|destruct H].
  - destruct H as [[]|[b [mt [m [_ H]]]]]. destruct H.
  - destruct H as [[]|[b H]]. destruct H.
Qed.

Lemma own_step s c a cfg kh : reachable s -> own_of s a = Some (cfg, kh) -> deletes a c = false ->
  exists cfg', own_of (after s c) a = Some (cfg', kh) /\ cf_mode cfg' = cf_mode cfg /\ cf_name cfg' = cf_name cfg /\
    (modifies a c = false -> creates c = None \/ (exists b m, creates c = Some (b, m) /\ b <> a) -> cfg' = cfg).
Proof.
  intros Hr Ho Hd. pose proof (WF_reachable s Hr) as Hw. apply own_of_some in Ho; auto. destruct Ho as [Hc [k [Hk <-]]].
  destruct (after_path s c Hw) as [ls [Hp HF]]. rewrite Forall_forall in HF.
  destruct (path_own s ls (after s c) a cfg k Hp Hw) as [Hk' [cfg' [Hc' [Hm [Hn Hcase]]]]]; auto.
  { intros l Hl. eapply scope_removes; eauto. }
  exists cfg'. split; [apply own_of_some; [apply WF_after; exact Hw|]; eauto|]. do 2 (split; [assumption|]).
  intros Hmod Hcr. destruct Hcase as [->|Hi]; [reflexivity|]. exfalso.
  destruct (scope_cfg c a cfg' (HF _ Hi)) as [H|[mode [H _]]]; [congruence|].
  destruct Hcr as [H0|[b [m [H0 H1]]]]; congruence.
Qed.
Lemma c39 s c a cfg kh : reachable s -> own_of s a = Some (cfg, kh) -> deletes a c = false ->
  exists cfg', own_of (after s c) a = Some (cfg', kh) /\ cf_mode cfg' = cf_mode cfg /\ cf_name cfg' = cf_name cfg.
Proof. intros Hr Ho Hd. destruct (own_step s c a cfg kh Hr Ho Hd) as [cfg' [H1 [H2 [H3 _]]]]. eauto. Qed.
Lemma c39_history s h a cfg kh : reachable s -> own_of s a = Some (cfg, kh) -> (forall c, In c h -> deletes a c = false) ->
  exists cfg', own_of (after_all s h) a = Some (cfg', kh) /\ cf_mode cfg' = cf_mode cfg /\ cf_name cfg' = cf_name cfg.
Proof.
  revert s cfg; induction h as [|c h IH]; intros s cfg Hr Ho Hd; [exists cfg; auto|]. rewrite after_all_cons.
  destruct (c39 s c a cfg kh Hr Ho (Hd c (or_introl eq_refl))) as [c1 [H1 [H2 H3]]].
  destruct (IH (after s c) c1 (reachable_after s c Hr) H1 (fun c0 H0 => Hd c0 (or_intror H0))) as [c2 [K1 [K2 K3]]].
  exists c2. do 2 (split; [congruence|]). congruence.
Qed.
Lemma inited_id s : version_of s <> None -> inited s = s.
Proof. intros H. unfold inited. rewrite arun_ensure_init. destruct (version_of s); [reflexivity|congruence]. Qed.
Lemma add_existing_run s n regex kh bin mode : WF s -> exists_acct s n ->
  arun (add_account n regex kh bin mode) s = (s, Err AccountExists).
Proof.
  intros Hw He. unfold add_account. rewrite arun_bind, arun_get_account_nocheck. fold (inited s).
  rewrite inited_id by (eapply exists_version; eauto). rewrite (exists_isalnum s n Hw He).
  rewrite arun_bind. unfold account_exists at 1, arun at 1. cbn [bind perform run astep].
  apply is_configured_exists in He. rewrite He. reflexivity.
Qed.
Lemma c39_add_again s c n mode : reachable s -> has_account s n -> creates c = Some (n, mode) ->
  answer s c = Err AccountExists /\ after s c = s.
Proof.
  intros Hr He Hc. pose proof (WF_reachable s Hr) as Hw. apply has_account_exists in He; auto.
  unfold answer, after. destruct c; simpl in Hc; try discriminate; injection Hc as -> _; cbn [exec].
  - rewrite arun_bind, add_existing_run by auto. auto.
  - unfold cli_add_account. rewrite !arun_bind, add_existing_run by auto. auto.
Qed.

(** ** C40 *)
Definition removed (s : ast) (a : text) : ast := step (LRemove a) s.
Lemma removed_log s a n : alog (removed s a) n = if match_account a n then [] else alog s n.
Proof.
  unfold removed, step, step_prog, remove_account, alog, arun. cbn [perform run astep fst a_logs].
  rewrite dget_dremove_if. destruct (match_account a n); reflexivity.
Qed.
Lemma del_run s a : WF s -> exists_acct s a -> arun (del_account a) s = (removed s a, Ok tt).
Proof. intros Hw He. unfold del_account. rewrite arun_bind, arun_get_account by auto. reflexivity. Qed.
Lemma removed_WF s a : WF s -> isalnum a = true -> WF (removed s a).
Proof. intros Hw Ha. apply step_WF; auto. Qed.
Lemma removed_own s a : isalnum a = true -> alog (removed s a) (own_chain a) = [].
Proof. intros Ha. rewrite removed_log, match_account_own, text_eqb_refl by auto. reflexivity. Qed.
Lemma removed_peer s a x : isalnum a = true -> alog (removed s a) (peer_chain a x) = [].
Proof. intros Ha. rewrite removed_log, match_account_peer, text_eqb_refl by auto. reflexivity. Qed.
Lemma removed_other s a b : WF s -> isalnum a = true -> b <> a -> same_account s (removed s a) b.
Proof.
  intros Hw Ha Hb. apply (path_same_account s [LRemove a] (removed s a) b Hw).
  - constructor; [exact Ha|constructor].
  - intros l [<-|[]]. split; [discriminate|]. simpl. congruence.
Qed.
Lemma removed_accounts s a : WF s -> isalnum a = true -> accounts_of (removed s a) = filter (fun b => negb (text_eqb b a)) (accounts_of s).
Proof.
  intros Hw Ha. pose proof (removed_WF s a Hw Ha) as Hw'.
  apply strict_unique; [apply accounts_strict; auto|apply strict_filter, accounts_strict; auto|].
  intros b. rewrite filter_In, !accounts_In by auto. rewrite removed_log.
  destruct (isalnum b) eqn:Hb.
  - rewrite match_account_own by auto. destruct (text_eqb b a); simpl; split; try tauto; try congruence. intros [_ H]; discriminate.
  - destruct (wf_own s Hw b) as [H|[H _]]; [|congruence]. rewrite H. destruct (match_account a (own_chain b)); split; tauto.
Qed.

(** what the rest of the command line does after deleting changes no log *)
Lemma inv_quiet_logs {A} (Sc : label -> Prop) (p : prog cop A) Q s : inv (fun _ => True) Sc p Q -> WF s -> version_of s <> None ->
  (forall l, Sc l -> sc_any l) -> forall n, alog (fst (arun p s)) n = alog s n.
Proof.
  intros Hi Hw Hv Hs n. destruct (Hi s Hw I) as [[ls [Hp [HF _]]] _].
  assert (HF' : Forall sc_any ls) by (eapply Forall_impl; eauto). clear HF Hi Hs Hw.
  revert Hp HF' Hv. generalize (fst (arun p s)). intros s' Hp. induction Hp as [s|s l ls s' Hg Hp IH]; intros HF Hv; [reflexivity|].
  inversion HF; subst. assert (Hl : forall n, alog (step l s) n = alog s n).
  { intros n0. destruct l; simpl in H1; try contradiction; try (apply step_frame; simpl; tauto).
    unfold step, step_prog. rewrite set_version_run. destruct (version_of s); [reflexivity|congruence]. }
  rewrite IH; [apply Hl|exact H2|]. unfold version_of. rewrite Hl. exact Hv.
Qed.

Lemma del_state s a c : WF s -> exists_acct s a -> c = ADel a \/ c = ACliDel a ->
  (forall n, alog (after s c) n = alog (removed s a) n) /\ (c = ADel a -> answer s c = Ok ONone /\ after s c = removed s a).
Proof.
  intros Hw He [->| ->]; unfold after, answer; cbn [exec].
  - rewrite arun_bind, del_run by auto. cbn. auto.
  - unfold cli_del_account. rewrite !arun_bind, del_run by auto. split; [|discriminate]. intros n.
    pose proof (exists_isalnum s a Hw He) as Ha.
    pose proof (inv_quiet_logs sc_any (cli_status true) _ (removed s a) (inv_cli_status true) (removed_WF s a Hw Ha)) as H.
    destruct (arun (cli_status true) (removed s a)) as [s2 [x|e]]; cbn [fst] in *; apply H; auto;
      unfold version_of; rewrite removed_log, match_account_mgr; apply (exists_version s a Hw He).
Qed.

Lemma c40_gone s a c : reachable s -> has_account s a -> c = ADel a \/ c = ACliDel a ->
  accounts_of (after s c) = filter (fun b => negb (text_eqb b a)) (accounts_of s) /\
  own_of (after s c) a = None /\ (forall b, b <> a -> same_account s (after s c) b) /\
  (c = ADel a -> answer s c = Ok ONone /\ a_rings (after s c) = a_rings s).
Proof.
  intros Hr He Hc. pose proof (WF_reachable s Hr) as Hw. apply has_account_exists in He; auto.
  pose proof (exists_isalnum s a Hw He) as Ha. pose proof (removed_WF s a Hw Ha) as Hw'.
  pose proof (WF_after s c Hw) as Hw2. destruct (del_state s a c Hw He Hc) as [Hl Hd].
  split; [|split; [|split]].
  - rewrite <- removed_accounts by auto. apply accounts_frame; auto. intros b. rewrite Hl. tauto.
  - apply own_of_none; auto. intros [c0 [k0 [H _]]]. unfold config_of in H. rewrite Hl, removed_own in H by auto. discriminate.
  - intros b Hb. eapply same_account_trans; [apply removed_other; eauto|]. apply same_account_logs; auto.
  - intros H. destruct (Hd H) as [H1 H2]. split; [exact H1|]. rewrite H2. reflexivity.
Qed.
Lemma view_empty a x : isalnum a = true -> view_of (peer_chain a (norm x)) [] = unknown_peer x.
Proof. intros Ha. unfold view_of, unknown_peer. rewrite peer_addr_chain by auto. reflexivity. Qed.
Lemma add_account_name n regex kh bin mode s s1 y : arun (add_account n regex kh bin mode) s = (s1, Ok y) -> y = n.
Proof.
  intros Ea. unfold add_account in Ea. apply arun_bind_ok in Ea. destruct Ea as [s2 [z [H1 H2]]].
  rewrite arun_get_account_nocheck in H1. destruct (isalnum n); [|discriminate]. injection H1 as <- <-.
  apply arun_bind_ok in H2. destruct H2 as [s3 [b [_ H2]]]. destruct b; [apply arun_raise_ok in H2; destruct H2|].
  apply arun_bind_ok in H2. destruct H2 as [s4 [u [_ H2]]]. apply arun_ret_ok in H2. apply H2.
Qed.
(** a creating call is [add_account], and then nothing that changes a log *)
Lemma add_state s c n mode : creates c = Some (n, mode) -> exists regex kh bin,
  first_settings c = Some (new_cfg n regex bin mode) /\
  let r := arun (add_account n regex kh bin mode) s in
  (forall m, alog (after s c) m = alog (fst r) m) /\
  (forall x, answer s c = Ok x -> snd r = Ok n) /\ (forall e, snd r = Err e -> answer s c = Err e /\ after s c = fst r).
Proof.
  intros Hc. unfold answer, after. destruct c; simpl in Hc; try discriminate; injection Hc as -> <-; cbn [exec].
  - exists regex, kh, gpgbin. split; [reflexivity|]. cbv zeta. rewrite arun_bind.
    destruct (arun (add_account n regex kh gpgbin gpgmode) s) as [s1 [y|e]] eqn:Ea; cbn [fst snd arun run].
    + split; [reflexivity|]. split; [|discriminate]. intros _ _. f_equal. eapply add_account_name; eauto.
    + split; [reflexivity|]. split; [discriminate|]. intros e' [= ->]; auto.
  - exists regex, use_key, gpgbin. split; [reflexivity|]. cbv zeta. unfold cli_add_account. rewrite !arun_bind.
    destruct (arun (add_account n regex use_key gpgbin _) s) as [s1 [y|e]] eqn:Ea; cbn [fst snd].
    + pose proof (add_account_name _ _ _ _ _ _ _ _ Ea) as ->.
      destruct (quiet_logs (cli_status_account n false) s1 (quiet_status_account n false)) as [Hq _].
      split; [|split; [intros _ _; reflexivity|discriminate]]. intros m. unfold alog.
      destruct (arun (cli_status_account n false) s1) as [s2 [st|e]]; cbn [fst arun run] in *; rewrite Hq; reflexivity.
    + split; [reflexivity|]. split; [discriminate|]. intros e' [= ->]; auto.
Qed.
Lemma scope_creates c n mode l m : creates c = Some (n, mode) -> api_scope c l -> writes l m -> m = own_chain n \/ m = mgr_chain.
Proof.
  intros Hc Hs Hw. destruct c; simpl in Hc; try discriminate; injection Hc as -> _; simpl in Hs;
    destruct l; simpl in *; try tauto; try (match type of Hs with _ /\ _ => destruct Hs as [Hs _] end); subst; auto.
Qed.
Lemma creates_log s c n mode m : WF s -> creates c = Some (n, mode) -> m <> own_chain n -> m <> mgr_chain -> alog (after s c) m = alog s m.
Proof.
  intros Hw Hc H1 H2. destruct (after_path s c Hw) as [ls [Hp HF]]. rewrite Forall_forall in HF. eapply path_frame; eauto.
  intros l Hl Hwr. destruct (scope_creates c n mode l m Hc (HF l Hl) Hwr); congruence.
Qed.
Lemma created s c n mode x : WF s -> creates c = Some (n, mode) -> answer s c = Ok x ->
  exists cfg kh, first_settings c = Some cfg /\ own_of (after s c) n = Some (cfg, kh).
Proof.
  intros Hw Hc Ha. destruct (add_state s c n mode Hc) as [regex [kh [bin [Hf [Hl [Ho _]]]]]].
  destruct (triple_add_account n regex kh bin mode s Hw I) as [[ls [_ [_ [_ H]]]] _]. rewrite (Ho x Ha) in H.
  destruct H as [_ [_ [H1 [c0 [k [H2 H3]]]]]]. exists (new_cfg n regex bin mode), (kg_kh k). split; [exact Hf|].
  apply own_of_some; [apply WF_after; exact Hw|]. unfold config_of, keygen_of. rewrite Hl. split; [exact H1|]. exists k; auto.
Qed.

Lemma c40_fresh s a d c mode x : reachable s -> has_account s a -> d = ADel a \/ d = ACliDel a -> creates c = Some (a, mode) ->
  answer (after s d) c = Ok x ->
  let s' := after (after s d) c in
  (exists cfg kh, first_settings c = Some cfg /\ own_of s' a = Some (cfg, kh)) /\
  peers_of s' a = Some [] /\ forall y, peer_of s' a y = Some (unknown_peer y).
Proof.
  intros Hr He Hd Hc Ha. cbv zeta. pose proof (WF_reachable s Hr) as Hw. apply has_account_exists in He; auto.
  pose proof (exists_isalnum s a Hw He) as Hal. destruct (del_state s a d Hw He Hd) as [Hl _].
  pose proof (WF_after s d Hw) as Hw1. pose proof (WF_after _ c Hw1) as Hw2.
  destruct (created (after s d) c a mode x Hw1 Hc Ha) as [cfg [kh [Hf Ho]]].
  assert (He2 : exists_acct (after (after s d) c) a) by (apply has_account_exists; auto; unfold has_account; congruence).
  assert (Hp : forall y, alog (after (after s d) c) (peer_chain a y) = []).
  { intros y. erewrite creates_log; eauto; [|intros H; eapply own_peer; symmetry; eauto|apply peer_mgr].
    rewrite Hl. apply removed_peer, Hal. }
  split; [eauto|]. split.
  - rewrite peers_of_spec by auto. f_equal. apply strict_unique; [apply peers_strict; auto|constructor|].
    intros y. rewrite peers_In by auto. rewrite Hp. simpl. tauto.
  - intros y. rewrite peer_of_spec by auto. unfold peer_log. rewrite Hp, view_empty by auto. reflexivity.
Qed.

(** ** C41 *)
Lemma c41_others s c n mode b : reachable s -> creates c = Some (n, mode) -> b <> n ->
  same_account s (after s c) b /\ (In b (accounts_of (after s c)) <-> In b (accounts_of s)).
Proof.
  intros Hr Hc Hb. pose proof (WF_reachable s Hr) as Hw. split.
  - eapply names_same; eauto; destruct c; simpl in *; try discriminate; congruence.
  - rewrite !accounts_In by (auto using WF_after). erewrite creates_log; eauto; [tauto| |apply own_mgr].
    intros H. apply own_chain_inj in H. congruence.
Qed.
Lemma create_fails n regex kh bin mode s s' e : arun (create n regex kh bin mode) s = (s', Err e) -> keygen_of s n = None -> keygen_of s' n = None.
Proof.
  intros H Hk. unfold create in H. rewrite arun_bind in H.
  destruct (mem_text mode _); [|injection H as <- _; exact Hk]. cbn [assert_] in H. change (arun (Ret tt) s) with (s, Ok tt) in H. cbv iota beta in H.
  rewrite arun_bind in H. unfold new_config in H at 1. destruct (mk_cfg_entry _) as [en|en] eqn:Em; [|injection H as <- _; exact Hk].
  cbn [lift bind] in H. rewrite arun_append in H. cbv iota beta in H.
  assert (He : en = ECfg (CfgEntry (L "nopreference") n regex mode bin)).
  { unfold mk_cfg_entry in Em. destruct (_ && _); [|discriminate]. congruence. }
  subst en. set (s1 := app_log _ _ _) in *.
  assert (Hk1 : keygen_of s1 n = None) by (unfold s1; rewrite keygen_app_cfg; exact Hk).
  rewrite arun_bind in H. match type of H with context[arun ?p s1] => set (q := p) in * end.
  assert (Hq : quiet q).
  { unfold q. destruct kh as [h|].
    - apply allowed_bind; [apply quiet_get_bingpg|]. intros g. apply allowed_bind; [apply quiet_get_secret_keyhandle|]. intros [h'|]; quiets.
    - apply allowed_bind; [quiets|]. intros id. apply allowed_bind; [apply quiet_get_bingpg|]. intros g. apply quiet_gen_secret_key. }
  destruct (quiet_logs q s1 Hq) as [Hl _].
  assert (Hkq : forall t, a_logs t = a_logs s1 -> keygen_of t n = None).
  { intros t Ht. unfold keygen_of, alog. rewrite Ht. exact Hk1. }
  destruct (arun q s1) as [s2 [kh'|e2]]; cbn [fst] in Hl; [|injection H as <- _; auto].
  rewrite arun_bind in H. destruct (quiet_logs (get_bingpg n) s2 (quiet_get_bingpg n)) as [Hl2 _].
  destruct (arun (get_bingpg n) s2) as [s3 [g|e2]]; cbn [fst] in Hl2; [|injection H as <- _; apply Hkq; congruence].
  rewrite arun_bind in H. destruct (quiet_logs (get_secret_keydata g kh' false) s3 (quiet_get_secret_keydata g kh' false)) as [Hl3 _].
  destruct (arun (get_secret_keydata g kh' false) s3) as [s4 [kd|e2]]; cbn [fst] in Hl3; [|injection H as <- _; apply Hkq; congruence].
  unfold append_keygen in H. rewrite arun_append in H. discriminate.
Qed.
Lemma keygen_none s n : WF s -> ~ exists_acct s n -> keygen_of s n = None.
Proof.
  intros Hw He. destruct (keygen_of s n) as [k|] eqn:Ek; [|reflexivity]. exfalso. apply He.
  pose proof (keygen_config s n Hw) as H. rewrite Ek in H. destruct (config_of s n) as [c|] eqn:Ec; [|exfalso; apply H; congruence].
  exists c, k. auto.
Qed.
Lemma add_run s n regex kh bin mode : ~ exists_acct s n -> isalnum n = true ->
  arun (add_account n regex kh bin mode) s = arun (create n (default_regex regex) kh bin mode ;;; Ret n) (inited s).
Proof.
  intros He Hn. unfold add_account. rewrite arun_bind, arun_get_account_nocheck, Hn. fold (inited s).
  rewrite arun_bind. unfold account_exists at 1, arun at 1. cbn [bind perform run astep]. rewrite inited_own.
  destruct (is_configured _) eqn:Ei; [exfalso; apply He, is_configured_exists, Ei|reflexivity].
Qed.
Lemma c41_retry s n regex kh bin mode e : reachable s -> ~ has_account s n -> answer s (AAdd n regex kh bin mode) = Err e ->
  ~ has_account (after s (AAdd n regex kh bin mode)) n.
Proof.
  intros Hr He Ha. pose proof (WF_reachable s Hr) as Hw.
  assert (Hne : ~ exists_acct s n) by (intros H; apply He, has_account_exists; auto). intros Hc.
  apply has_account_exists in Hc; [|apply WF_after; exact Hw]. destruct Hc as [c0 [k0 [_ Hk0]]].
  unfold answer, after in *. cbn [exec] in *. rewrite arun_bind in *.
  destruct (isalnum n) eqn:Hn.
  - rewrite add_run in * by auto. rewrite arun_bind in *.
    assert (Hki : keygen_of (inited s) n = None).
    { unfold keygen_of. rewrite inited_own. apply keygen_none; auto. }
    destruct (arun (create n (default_regex regex) kh bin mode) (inited s)) as [s1 [u|e1]] eqn:Ec; [discriminate|].
    cbn [fst] in Hk0. rewrite (create_fails _ _ _ _ _ _ _ _ Ec Hki) in Hk0. discriminate.
  - unfold add_account in Hk0. rewrite arun_bind, arun_get_account_nocheck, Hn in Hk0. cbn [fst] in Hk0. fold (inited s) in Hk0.
    unfold keygen_of in Hk0. rewrite inited_own in Hk0. pose proof (keygen_none s n Hw Hne). unfold keygen_of in H. congruence.
Qed.
Lemma c41_nothing s c n mode : reachable s -> creates c = Some (n, mode) ->
  isalnum n = false \/ has_account s n \/ (mode <> L "own" /\ mode <> L "system") ->
  (exists e, answer s c = Err e) /\ same_everything s (after s c).
Proof.
  intros Hr Hc Hbad. pose proof (WF_reachable s Hr) as Hw.
  destruct (add_state s c n mode Hc) as [regex [kh [bin [_ [_ [_ Herr]]]]]]. cbv zeta in Herr.
  destruct (exists_acct_dec s n) as [He|He].
  - rewrite add_existing_run in Herr by auto. destruct (Herr _ eq_refl) as [H1 H2]. split; [eauto|]. rewrite H2.
    split; [reflexivity|]. split; [intros; apply same_account_refl|auto].
  - destruct (isalnum n) eqn:Hn.
    + destruct Hbad as [H|[H|[H1 H2]]]; [discriminate|exfalso; apply He, has_account_exists; auto|].
      assert (Hm : mem_text mode [L "own"; L "system"] = false).
      { destruct (mem_text _ _) eqn:Em; [|reflexivity]. apply mem_text_In in Em. destruct Em as [Em|[Em|[]]]; congruence. }
      rewrite add_run in Herr by auto. unfold create in Herr. rewrite Hm in Herr. cbn [assert_ bind] in Herr.
      change (arun (Raise AssertionError) (inited s)) with (inited s, @Err text AssertionError) in Herr.
      destruct (Herr _ eq_refl) as [H3 H4]. split; [eauto|]. rewrite H4. apply inited_same, Hw.
    + unfold add_account in Herr. rewrite arun_bind, arun_get_account_nocheck, Hn in Herr. fold (inited s) in Herr.
      destruct (Herr _ eq_refl) as [H3 H4]. split; [eauto|]. rewrite H4. apply inited_same, Hw.
Qed.

(** ** C42 *)
Lemma cfg_eqb_spec a b : cfg_eqb a b = true <-> a = b.
Proof.
  unfold cfg_eqb. rewrite !andb_true_iff, !text_eqb_eq. destruct a, b; simpl. split; [intros [[[[-> ->] ->] ->] ->]; reflexivity|].
  intros [= -> -> -> -> ->]. auto.
Qed.
Lemma valid_pref_spec p : valid_pref p = true <-> p = L "nopreference" \/ p = L "mutual".
Proof. unfold valid_pref. rewrite mem_text_In. simpl. intuition congruence. Qed.
Lemma wf_valid s a c : WF s -> config_of s a = Some c -> valid_cfg c = true.
Proof.
  intros Hw Hc. destruct (wf_own s Hw a) as [H|[_ H]]; [unfold config_of in Hc; rewrite H in Hc; discriminate|].
  apply own_ok_config in H. destruct H as [c0 [H1 [H2 _]]]. unfold config_of in Hc. congruence.
Qed.
Lemma evolve_valid s a c regex bin pref : WF s -> config_of s a = Some c ->
  valid_cfg (with_changes c regex bin pref) = true <-> preference pref.
Proof.
  intros Hw Hc. apply wf_valid in Hc; auto. unfold valid_cfg in *. apply andb_prop in Hc. destruct Hc as [Hp Hm].
  cbn [with_changes cf_pref cf_mode]. rewrite Hm, andb_true_r. destruct pref as [p|]; [apply valid_pref_spec|]. simpl. tauto.
Qed.
(** the state after mod_account *)
Definition modified (s : ast) (a : text) (c c' : cfg_entry) : ast := if cfg_eqb c' c then s else app_log s (own_chain a) (ECfg c').
Lemma mod_run s a c regex kh bin pref : WF s -> exists_acct s a -> config_of s a = Some c -> let c' := with_changes c regex bin pref in
  (preference pref -> arun (mod_account a regex kh bin pref) s = (modified s a c c', Ok (negb (cfg_eqb c' c), a))) /\
  (~ preference pref -> arun (mod_account a regex kh bin pref) s = (s, Err ValueError)).
Proof.
  intros Hw He Hc. cbv zeta. unfold mod_account. rewrite arun_bind, arun_get_account, arun_bind, arun_change_config, Hc by auto.
  change (evolve c pref regex bin) with (with_changes c regex bin pref). rewrite <- (evolve_valid s a c regex bin pref Hw Hc).
  unfold modified. destruct (valid_cfg _); [|split; [discriminate|reflexivity]]. split; [|congruence]. intros _.
  destruct (cfg_eqb _ _); reflexivity.
Qed.
Lemma modified_own s a c c' kh : WF s -> WF (modified s a c c') -> own_of s a = Some (c, kh) -> own_of (modified s a c c') a = Some (c', kh).
Proof.
  intros Hw Hw' Ho. apply own_of_some in Ho; auto. destruct Ho as [Hc [k [Hk <-]]]. apply own_of_some; auto.
  unfold modified. destruct (cfg_eqb c' c) eqn:Ee; [apply cfg_eqb_spec in Ee; subst c'; eauto|].
  rewrite config_app_cfg, keygen_app_cfg. eauto.
Qed.
Lemma modified_log s a c c' n : n <> own_chain a -> alog (modified s a c c') n = alog s n.
Proof. intros H. unfold modified. destruct (cfg_eqb c' c); [reflexivity|]. rewrite alog_app. apply text_eqb_neq in H. rewrite H. reflexivity. Qed.
Lemma modified_empty s a c c' b : config_of s a = Some c -> alog (modified s a c c') (own_chain b) = [] <-> alog s (own_chain b) = [].
Proof.
  intros Hc. unfold modified. destruct (cfg_eqb c' c); [tauto|]. rewrite alog_app. destruct (text_eqb_spec (own_chain b) (own_chain a)) as [H|H]; [|tauto].
  apply own_chain_inj in H. subst b. split; [discriminate|]. intros H. unfold config_of in Hc. rewrite H in Hc. discriminate.
Qed.

Lemma modified_only s a c c' s' kh : WF s -> WF s' -> own_of s a = Some (c, kh) -> exists_acct s' a ->
  (forall n, alog s' n = alog (modified s a c c') n) -> only_settings s s' a.
Proof.
  intros Hw Hw' Ho He' Hl. pose proof (own_exists _ _ _ _ Hw Ho) as He. apply own_of_some in Ho; auto. destruct Ho as [Hc _].
  split; [|split; [|split; [|split]]].
  - apply accounts_frame; auto. intros b. rewrite Hl. apply modified_empty, Hc.
  - intros b Hb. apply same_account_logs; auto. intros n Hn. rewrite Hl. apply modified_log. intros ->.
    destruct Hn as [H|[H|[x H]]]; [apply own_chain_inj in H; congruence|eapply own_oob; eauto|eapply own_peer; eauto].
  - rewrite !peers_of_spec by auto. f_equal. apply strict_unique; [apply peers_strict; auto..|]. intros x. rewrite !peers_In by auto.
    rewrite Hl, modified_log; [tauto|]. intros H. eapply own_peer; symmetry; eauto.
  - intros x. rewrite !peer_of_spec by auto. unfold peer_log. rewrite Hl, modified_log; [reflexivity|]. intros H. eapply own_peer; symmetry; eauto.
  - intros x. rewrite !verif_of_spec by auto. rewrite Hl, modified_log; [reflexivity|]. intros H. eapply own_oob; symmetry; eauto.
Qed.
Lemma c42 s a cfg kh regex key bin pref : reachable s -> own_of s a = Some (cfg, kh) ->
  let c := AMod a regex key bin pref in let cfg' := with_changes cfg regex bin pref in
  (preference pref ->
     (exists b, answer s c = Ok (OMod b a) /\ (b = true <-> cfg' <> cfg)) /\
     own_of (after s c) a = Some (cfg', kh) /\ only_settings s (after s c) a /\
     a_rings (after s c) = a_rings s /\ a_trace (after s c) = a_trace s) /\
  (~ preference pref -> answer s c = Err ValueError /\ after s c = s).
Proof.
  intros Hr Ho. cbv zeta. pose proof (WF_reachable s Hr) as Hw. pose proof (own_exists _ _ _ _ Hw Ho) as He.
  pose proof Ho as Ho'. apply own_of_some in Ho'; auto. destruct Ho' as [Hc _].
  destruct (mod_run s a cfg regex key bin pref Hw He Hc) as [H1 H2]. cbv zeta in H1.
  set (cfg' := with_changes cfg regex bin pref) in *. pose proof (WF_after s (AMod a regex key bin pref) Hw) as Hw'.
  split; intros Hp.
  - specialize (H1 Hp). assert (Hst : after s (AMod a regex key bin pref) = modified s a cfg cfg').
    { unfold after. cbn [exec]. rewrite arun_bind, H1. reflexivity. }
    rewrite Hst in *. split; [|split; [|split; [|split]]].
    + exists (negb (cfg_eqb cfg' cfg)). split; [unfold answer; cbn [exec]; rewrite arun_bind, H1; reflexivity|].
      pose proof (cfg_eqb_spec cfg' cfg) as Hs. destruct (cfg_eqb cfg' cfg); simpl; split; intros; try discriminate; try tauto.
      intros Hx. apply Hs in Hx. discriminate.
    + apply modified_own; auto.
    + eapply modified_only; eauto. eapply own_exists; eauto. apply modified_own; eauto.
    + unfold modified. destruct (cfg_eqb cfg' cfg); reflexivity.
    + unfold modified. destruct (cfg_eqb cfg' cfg); reflexivity.
  - specialize (H2 Hp). unfold answer, after. cbn [exec]. rewrite arun_bind, H2. auto.
Qed.
Lemma c42_cli s a cfg kh regex key bin pref : reachable s -> own_of s a = Some (cfg, kh) ->
  let c := ACliMod a key bin regex pref in
  let cfg' := with_changes cfg regex (Some (match bin with Some b => b | None => L "gpg" end)) pref in
  (preference pref -> own_of (after s c) a = Some (cfg', kh) /\ only_settings s (after s c) a) /\
  (~ preference pref -> answer s c = Err ValueError /\ after s c = s).
Proof.
  intros Hr Ho. cbv zeta. pose proof (WF_reachable s Hr) as Hw. pose proof (own_exists _ _ _ _ Hw Ho) as He.
  pose proof Ho as Ho'. apply own_of_some in Ho'; auto. destruct Ho' as [Hc [k [Hk Hkh]]].
  set (b := Some (match bin with Some b => b | None => L "gpg" end)).
  destruct (mod_run s a cfg regex key b pref Hw He Hc) as [H1 H2]. cbv zeta in H1.
  set (cfg' := with_changes cfg regex b pref) in *. set (c := ACliMod a key bin regex pref).
  pose proof (WF_after s c Hw) as Hw'. split; intros Hp.
  - specialize (H1 Hp).
    assert (Hl : forall n, alog (after s c) n = alog (modified s a cfg cfg') n).
    { intros n. unfold after, c. cbn [exec]. unfold cli_mod_account. fold b. rewrite !arun_bind, H1.
      destruct (quiet_logs (cli_status_account a false) (modified s a cfg cfg') (quiet_status_account a false)) as [Hq _].
      rewrite arun_bind. unfold alog.
      destruct (arun (cli_status_account a false) (modified s a cfg cfg')) as [s2 [st|e]]; cbn [fst arun run] in *; rewrite Hq; reflexivity. }
    assert (Ho2 : own_of (after s c) a = Some (cfg', kh)).
    { apply own_of_some; auto. unfold config_of, keygen_of. rewrite !Hl. fold (config_of (modified s a cfg cfg') a) (keygen_of (modified s a cfg cfg') a).
      unfold modified. destruct (cfg_eqb cfg' cfg) eqn:Ee; [apply cfg_eqb_spec in Ee; rewrite Ee; eauto|].
      rewrite config_app_cfg, keygen_app_cfg. eauto. }
    split; [exact Ho2|]. eapply modified_only; eauto. eapply own_exists; eauto.
  - specialize (H2 Hp). unfold answer, after, c. cbn [exec]. unfold cli_mod_account. fold b. rewrite !arun_bind, H2. auto.
Qed.
Lemma c42_only s c a cfg kh : reachable s -> own_of s a = Some (cfg, kh) -> deletes a c = false -> modifies a c = false ->
  own_of (after s c) a = Some (cfg, kh).
Proof.
  intros Hr Ho Hd Hm. destruct (own_step s c a cfg kh Hr Ho Hd) as [cfg' [H1 [_ [_ H2]]]].
  destruct (creates c) as [[b m]|] eqn:Ec.
  - destruct (text_eqb_spec b a) as [->|Hb].
    + destruct (c39_add_again s c a m Hr) as [_ H]; [unfold has_account; congruence|exact Ec|]. rewrite H. exact Ho.
    + rewrite H1, (H2 Hm); [reflexivity|]. right. eauto.
  - rewrite H1, (H2 Hm); [reflexivity|]. left; reflexivity.
Qed.

End AcctProofs.
