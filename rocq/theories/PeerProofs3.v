(** Proofs for C12-C19. *)
From Verif Require Import Base PyStr Base64 Env Prog Chain Gpg Mime States Recommendation Account Cmdline Bot Fs Api Steps StepFacts Exec ApiScope Spec Obs PeerSpec Incoming PeerFacts PeerProofs PeerProofs2.

Section PeerProofs3.
Context {E : Env}.
Open Scope Z_scope.

(** ** What a step does to a log *)
Definition entry_of (l : label) (n : text) (e : entry) : Prop :=
  match l with
  | LMsg a x id d _ _ _ => n = peer_chain a x /\ exists p k h, e = EMsg (MsgEntry id d p k h)
  | LGossip a x id d kd kh => n = peer_chain a x /\ exists k h, kd = Some k /\ kh = Some h /\ e = EGossip (GossipEntry id d k h)
  | LCfg a c => n = own_chain a /\ e = ECfg c
  | LKeygen a kd kh => n = own_chain a /\ e = EKeygen (KeygenEntry kd kh)
  | LVerif a v => n = oob_chain a /\ e = EVerif v
  | LVersion => n = mgr_chain /\ e = EACfg (ACfgEntry (L "0.1"))
  | _ => False
  end.
Lemma decided_cases s ch d n :
  alog (fst (decided s ch d)) n = alog s n \/
  exists e, d = Ok (Some e) /\ n = ch /\ alog (fst (decided s ch d)) n = Block (clock (a_tick s)) e :: alog s n.
Proof.
  destruct d as [[e|]|]; cbn [decided fst]; auto. rewrite alog_app.
  destruct (text_eqb_spec n ch) as [->|]; [right|auto]. exists e. auto.
Qed.
Lemma step_log s l n : alog (step l s) n = alog s n \/ ((l = LRm \/ exists a, l = LRemove a) /\ alog (step l s) n = []) \/
  exists e, alog (step l s) n = Block (clock (a_tick s)) e :: alog s n /\ entry_of l n e.
Proof.
  assert (Happ : forall ch e, entry_of l ch e -> step l s = app_log s ch e ->
    alog (step l s) n = alog s n \/ exists e, alog (step l s) n = Block (clock (a_tick s)) e :: alog s n /\ entry_of l n e).
  { intros ch e He ->. rewrite alog_app. destruct (text_eqb_spec n ch) as [->|]; [right|auto]. exists e. auto. }
  assert (H3 : forall A B C : Prop, A \/ C -> A \/ B \/ C) by tauto.
  destruct l.
  - left. reflexivity.
  - left. reflexivity.
  - left. unfold alog. rewrite step_gpg. reflexivity.
  - apply H3. unfold step, step_prog. rewrite update_from_msg_run.
    destruct (decided_cases s (peer_chain acct addr) (msg_decide (alog s (peer_chain acct addr)) id date pref kd kh) n) as [H|[e [He [-> H]]]]; [auto|].
    right. exists e. split; [exact H|]. apply msg_decide_some in He.
    destruct He as [_ [[p [k [_ [_ [_ [_ ->]]]]]]|[_ [_ ->]]]]; split; eauto.
  - apply H3. unfold step, step_prog. rewrite update_from_msg_gossip_run.
    destruct (decided_cases s (peer_chain acct addr) (gossip_decide (alog s (peer_chain acct addr)) id date kd kh) n) as [H|[e [He [-> H]]]]; [auto|].
    right. exists e. split; [exact H|]. apply gossip_decide_some in He.
    destruct He as [_ [k [h [-> [_ [-> ->]]]]]]; split; eauto.
  - apply H3. eapply Happ with (ch := own_chain acct); [|reflexivity]. split; reflexivity.
  - apply H3. eapply Happ with (ch := own_chain acct); [|reflexivity]. split; reflexivity.
  - apply H3. eapply Happ with (ch := oob_chain acct); [|reflexivity]. split; reflexivity.
  - apply H3. destruct (version_of s) eqn:Ev.
    + left. unfold step, step_prog. rewrite set_version_run, Ev. reflexivity.
    + eapply Happ with (ch := mgr_chain); [split; reflexivity|].
      unfold step, step_prog. rewrite set_version_run, Ev. reflexivity.
  - destruct (match_account acct n) eqn:Em.
    + right. left. split; [eauto|]. unfold step, step_prog, remove_account, arun, alog. cbn [perform run astep fst a_logs].
      rewrite dget_dremove_if. rewrite Em. reflexivity.
    + left. apply step_frame. simpl. congruence.
  - right. left. split; [auto|]. reflexivity.
Qed.

(** ** Lists of names *)
Lemma filter_dset {V} (f : text -> bool) (d : dict V) k v : f k = false -> filter f (dkeys (dset d k v)) = filter f (dkeys d).
Proof.
  intros H. induction d as [|[k' v'] d IH]; cbn.
  - rewrite H. reflexivity.
  - destruct (text_eqb_spec k k') as [->|]; cbn; [reflexivity|]. unfold dkeys in IH. rewrite IH. reflexivity.
Qed.
Lemma step_names s l p : (forall n, writes l n -> startswith p n = false) -> l <> LRm -> (forall a, l <> LRemove a) ->
  with_prefix p (dkeys (a_logs (step l s))) = with_prefix p (dkeys (a_logs s)).
Proof.
  intros H Hrm Hrem. unfold with_prefix. f_equal.
  assert (Happ : forall ch e, writes l ch -> filter (startswith p) (dkeys (a_logs (app_log s ch e))) = filter (startswith p) (dkeys (a_logs s))).
  { intros ch e Hw. unfold app_log. cbn [astep fst a_logs]. apply filter_dset. auto. }
  destruct l; try reflexivity.
  - rewrite step_gpg. reflexivity.
  - unfold step, step_prog. rewrite update_from_msg_run. destruct (msg_decide _ _ _ _ _ _) as [[e|]|]; cbn [decided fst]; auto. apply Happ. reflexivity.
  - unfold step, step_prog. rewrite update_from_msg_gossip_run. destruct (gossip_decide _ _ _ _ _) as [[e|]|]; cbn [decided fst]; auto. apply Happ. reflexivity.
  - apply (Happ (own_chain acct) (ECfg c)). reflexivity.
  - apply (Happ (own_chain acct) (EKeygen (KeygenEntry kd kh))). reflexivity.
  - apply (Happ (oob_chain acct) (EVerif e)). reflexivity.
  - unfold step, step_prog. rewrite set_version_run. destruct (version_of s); [reflexivity|]. cbn [fst]. apply Happ. reflexivity.
  - destruct (Hrem acct eq_refl).
  - congruence.
Qed.
Lemma path_names s ls s' p : path s ls s' ->
  (forall l, In l ls -> (forall n, writes l n -> startswith p n = false) /\ l <> LRm /\ forall a, l <> LRemove a) ->
  with_prefix p (dkeys (a_logs s')) = with_prefix p (dkeys (a_logs s)).
Proof.
  induction 1 as [|s l ls s' Hg Hp IH]; intros H; [reflexivity|]. rewrite IH by (intros; apply H; simpl; auto).
  destruct (H l (or_introl eq_refl)) as [H1 [H2 H3]]. apply step_names; auto.
Qed.
Lemma accounts_path s ls s' : path s ls s' ->
  (forall l, In l ls -> (forall a, ~ writes l (own_chain a)) /\ l <> LRm /\ forall a, l <> LRemove a) -> accounts_of s' = accounts_of s.
Proof.
  intros Hp H. rewrite !accounts_of_spec. f_equal. eapply path_names; [exact Hp|]. intros l Hl.
  destruct (H l Hl) as [H1 [H2 H3]]. split; [|auto]. intros n Hw.
  destruct (startswith (own_chain []) n) eqn:Es; [|reflexivity]. exfalso. apply startswith_spec in Es. destruct Es as [r ->].
  apply (H1 r). exact Hw.
Qed.

(** ** C14, C15 *)
Lemma inc_writes a m nd l n : l = LVersion \/ inc_scope a m nd l -> writes l n ->
  n = mgr_chain \/ n = peer_chain a (sender_of m) \/
  exists content x, opens a m content /\ recipient (opened_as m content) x /\ n = peer_chain a x /\ nd = false /\ is_encrypted m = Ok true.
Proof.
  intros [->|Hs] Hw; [left; exact Hw|]. destruct l; simpl in *; try tauto.
  - destruct Hs as [-> [-> _]]. subst n. auto.
  - destruct Hs as [-> [-> [Henc [_ [_ [dec [r [pahs [p [Hop [Hr [-> _]]]]]]]]]]]]. subst n. right. right.
    exists dec, (norm r). split; [exact Hop|]. split; [exists r; split; [exact Hr|reflexivity]|]. auto.
Qed.

Theorem c14 : forall s a m ign nd, reachable s ->
  let s' := after s (AIncoming a m ign nd) in
  accounts_of s' = accounts_of s /\
  (forall b, own_of s' b = own_of s b) /\
  (forall b y, verif_of s' b y = verif_of s b y) /\
  (forall b y, b <> a -> peer_of s' b y = peer_of s b y) /\
  (forall b, b <> a -> peers_of s' b = peers_of s b) /\
  (forall y, norm y <> sender_of m ->
     (nd = true \/ is_encrypted m <> Ok true \/ forall content, opens a m content -> ~ recipient (opened_as m content) (norm y)) ->
     peer_of s' a y = peer_of s a y).
Proof.
  intros s a m ign nd Hr. cbv zeta. pose proof (reachable_WF s Hr) as Hw.
  destruct (after_path s (AIncoming a m ign nd) Hw) as [ls [Hp HF]]. rewrite Forall_forall in HF. cbn [api_scope] in HF.
  pose proof (path_WF _ _ _ Hp Hw) as Hw'. set (s' := after s (AIncoming a m ign nd)) in *.
  assert (Hlog : forall n, n <> mgr_chain -> n <> peer_chain a (sender_of m) ->
    (nd = true \/ is_encrypted m <> Ok true \/ forall content x, opens a m content -> recipient (opened_as m content) x -> n <> peer_chain a x) -> alog s' n = alog s n).
  { intros n H1 H2 H3. eapply path_frame; [exact Hp|]. intros l Hl Hwr. apply (inc_writes a m nd l n (HF l Hl)) in Hwr.
    destruct Hwr as [H|[H|[content [x [Hop [Hx [-> [Hnd Henc]]]]]]]]; [congruence|congruence|].
    destruct H3 as [H3|[H3|H3]]; [congruence|congruence|]. exact (H3 content x Hop Hx eq_refl). }
  assert (Hown : forall b, alog s' (own_chain b) = alog s (own_chain b)).
  { intros b. apply Hlog; [intros H; eapply own_mgr; eauto|intros H; eapply own_peer; eauto|].
    right. right. intros content x _ _ H. eapply own_peer; eauto. }
  assert (Hkind : forall l, In l ls -> l <> LRm /\ forall b, l <> LRemove b).
  { intros l Hl. destruct (HF l Hl) as [->|Hs]; [split; discriminate|]. destruct l; simpl in Hs; try tauto; split; discriminate. }
  assert (Hpeer : forall b y, b <> a -> isalnum b = true -> alog s' (peer_chain b y) = alog s (peer_chain b y)).
  { intros b y Hb Hab. destruct (exists_acct_dec s a) as [He|He].
    - pose proof (exists_isalnum s a Hw He) as Ha.
      apply Hlog; [intros H; eapply peer_mgr; eauto|intros H; apply peer_chain_inj in H; tauto|].
      right. right. intros content x _ _ H. apply peer_chain_inj in H; tauto.
    - unfold s', after. cbn [exec]. rewrite arun_with_account_none by exact He. cbn [fst].
      unfold inited. rewrite arun_ensure_init. destruct (version_of s); [reflexivity|]. cbn [fst]. rewrite alog_app.
      destruct (text_eqb_spec (peer_chain b y) mgr_chain); [exfalso; eapply peer_mgr; eauto|reflexivity]. }
  split; [|split; [|split; [|split; [|split]]]].
  - eapply accounts_path; [exact Hp|]. intros l Hl. split; [|apply Hkind; exact Hl].
    intros b Hwr. apply (inc_writes a m nd l _ (HF l Hl)) in Hwr.
    destruct Hwr as [H|[H|[content [x [_ [_ [H _]]]]]]]; [eapply own_mgr; eauto|eapply own_peer; eauto|eapply own_peer; eauto].
  - intros b. apply own_of_frame; auto.
  - intros b y. apply verif_of_frame; auto. apply Hlog; [intros H; eapply oob_mgr; eauto|intros H; eapply oob_peer; eauto|].
    right. right. intros content x _ _ H. eapply oob_peer; eauto.
  - intros b y Hb. destruct (exists_acct_dec s b) as [He|He].
    + apply peer_of_frame; auto. apply Hpeer; [exact Hb|exact (exists_isalnum s b Hw He)].
    + rewrite !peer_of_none; auto. intros Hc. apply He. eapply exists_acct_frame; [|exact Hc]. auto.
  - intros b Hb. destruct (exists_acct_dec s b) as [He|He].
    + rewrite !peers_of_spec; auto; [|eapply exists_acct_frame; [apply Hown|exact He]]. unfold peer_names. f_equal. f_equal.
      pose proof (exists_isalnum s b Hw He) as Hab.
      destruct (exists_acct_dec s a) as [Hea|Hea].
      * pose proof (exists_isalnum s a Hw Hea) as Ha. eapply path_names; [exact Hp|]. intros l Hl. split; [|apply Hkind; exact Hl].
        intros n Hwr. destruct (startswith (peer_prefix b) n) eqn:Es; [|reflexivity]. exfalso.
        apply startswith_spec in Es. destruct Es as [r ->].
        apply (inc_writes a m nd l _ (HF l Hl)) in Hwr. change (peer_prefix b ++ r) with (peer_chain b r) in Hwr.
        destruct Hwr as [H|[H|[content [x [_ [_ [H _]]]]]]]; [eapply peer_mgr; eauto|apply peer_chain_inj in H; tauto|apply peer_chain_inj in H; tauto].
      * unfold s', after. cbn [exec]. rewrite arun_with_account_none by exact Hea. cbn [fst].
        unfold inited. rewrite arun_ensure_init. destruct (version_of s); [reflexivity|]. cbn [fst].
        unfold with_prefix. f_equal. unfold app_log. cbn [astep fst a_logs]. apply filter_dset. reflexivity.
    + unfold peers_of, answer. cbn [exec]. rewrite !arun_with_account_none; auto.
      intros Hc. apply He. eapply exists_acct_frame; [|exact Hc]. auto.
  - intros y Hy Hno. apply peer_of_frame; auto. apply Hlog; [intros H; eapply peer_mgr; eauto|intros H; apply peer_chain_addr_inj in H; auto|].
    destruct Hno as [H|[H|H]]; auto. right. right. intros content x Hop Hx H'. apply peer_chain_addr_inj in H'. subst x. eapply H; eauto.
Qed.

End PeerProofs3.
