(** Proofs of C81. *)
From Verif Require Import Base PyStr Env Prog Chain Gpg Mime States Recommendation Account Cmdline Bot Fs Api Steps StepFacts Exec ApiScope
  Spec PeerSpec OutSpec AcctSpec Obs PeerFacts Quiet OutProofs AcctFacts AcctProofs AcctProofs2 ListsSpec.
From Coq Require Import Sorting.Sorted.

Section ListsProofs.
Context {E : Env}.

(** ** Verifications *)
Definition verif_log (s : ast) (a x : text) : option verif_entry :=
  find (fun e => text_eqb x (ve_addr e)) (verif_entries (alog s (oob_chain a))).


Lemma inited_oob s a : alog (inited s) (oob_chain a) = alog s (oob_chain a).
Proof.
  unfold inited. rewrite arun_ensure_init. destruct (version_of s); [reflexivity|].
  cbn [fst]. rewrite alog_app. destruct (text_eqb_spec (oob_chain a) mgr_chain) as [H|H]; [destruct (oob_mgr _ H)|reflexivity].
Qed.
Lemma scope_oob c l a : isalnum a = true -> deletes_all c = false ->
  (forall n y k, c <> AVerifySelf n y k) -> (forall n y k, c <> AVerifyPeer n y k) -> api_scope c l -> ~ writes l (oob_chain a).
Proof.
  intros Ha Hd H1 H2 Hs Hw.
  assert (Hl : l = LRm \/ exists n e, l = LVerif n e).
  { destruct l; simpl in Hw; try tauto; try (right; do 2 eexists; reflexivity);
      try (exfalso; first [eapply oob_mgr; eauto; fail|eapply oob_peer; eauto; fail|eapply own_oob; symmetry; eauto; fail]).
    rewrite match_account_oob in Hw by exact Ha. discriminate. }
  destruct Hl as [->|[n [e ->]]].
  - destruct c; simpl in *; unfold sc_a, sc_gpg in *; try discriminate; intuition (try discriminate); try congruence;
      repeat match goal with H : exists _, _ |- _ => destruct H end; intuition (try discriminate).
  - destruct c; simpl in *; unfold sc_a, sc_gpg in *; try discriminate; intuition (try discriminate); try congruence;
      repeat match goal with H : exists _, _ |- _ => destruct H end; intuition (try discriminate); eauto.
Qed.
Lemma verify_step s n y k o a x : WF s ->
  let p := with_account n (fun b => perform (CAppend (oob_chain b) (EVerif (VerifEntry y k o))) ;;; Ret ONone) in
  verif_log (fst (arun p s)) a x =
    (if is_ok (snd (arun p s)) then if text_eqb n a && text_eqb y x then Some (VerifEntry x k o) else verif_log s a x
     else verif_log s a x).
Proof.
  intros Hw p. unfold p. destruct (exists_acct_dec s n) as [He|He].
  - rewrite arun_with_account by auto.
    change (arun (perform (CAppend (oob_chain n) (EVerif (VerifEntry y k o))) ;;; Ret ONone) s)
      with (app_log s (oob_chain n) (EVerif (VerifEntry y k o)), @Ok outcome ONone).
    cbn [fst snd is_ok]. unfold verif_log. rewrite alog_app. destruct (text_eqb_spec n a) as [->|Hn].
    + rewrite text_eqb_refl. cbn [andb]. unfold verif_entries. cbn [flat_map bl_entry app find ve_addr].
      destruct (text_eqb_spec y x) as [->|Hy]; [rewrite text_eqb_refl; reflexivity|].
      destruct (text_eqb_spec x y) as [->|_]; [congruence|reflexivity].
    + cbn [andb]. destruct (text_eqb_spec (oob_chain a) (oob_chain n)) as [H|_]; [|reflexivity].
      apply oob_chain_inj in H. congruence.
  - rewrite arun_with_account_none by auto. cbn [fst snd is_ok]. unfold verif_log. rewrite inited_oob. reflexivity.
Qed.
Lemma empty_logs_verif s a x : a_logs s = [] -> verif_log s a x = None.
Proof. intros H. unfold verif_log, alog. rewrite H. reflexivity. Qed.
Lemma verif_step s c a x : WF s -> isalnum a = true ->
  verif_log (after s c) a x =
    (if is_ok (answer s c) then
       if deletes_all c then None else match recorded a x c with Some e => Some e | None => verif_log s a x end
     else verif_log s a x).
Proof.
  intros Hw Ha. destruct (deletes_all c) eqn:Hd.
  - assert (Hc : destroys s c \/ c = ACliDestroy true /\ version_log s = []).
    { destruct c; try discriminate Hd; [left; left; reflexivity|]. destruct yes; [|discriminate].
      destruct (version_log s) eqn:Ev; [auto|]. left. right. split; [reflexivity|congruence]. }
    destruct Hc as [Hc|[-> Hv]].
    + destruct (c46_run s c Hw Hc) as [[r Hr] Hs]. rewrite Hr, Hs. cbn [is_ok]. apply empty_logs_verif. reflexivity.
    + assert (Hn : version_of s = None).
      { destruct (version_of s) eqn:Ev; [|reflexivity]. exfalso. apply (proj1 (version_some s Hw)); [congruence|exact Hv]. }
      assert (Hl : a_logs s = []).
      { destruct (a_logs s) eqn:El; [reflexivity|]. exfalso. apply (wf_version s Hw); [congruence|exact Hn]. }
      assert (H : arun mgr_version s = (s, Ok (option_map ac_version (version_of s)))) by reflexivity.
      unfold after, answer. cbn [exec]. unfold cli_destroy_all. rewrite !arun_bind, H, Hn.
      apply empty_logs_verif. exact Hl.
  - assert (Hc : (exists n y k, c = AVerifySelf n y k) \/ (exists n y k, c = AVerifyPeer n y k) \/
      (forall n y k, c <> AVerifySelf n y k) /\ (forall n y k, c <> AVerifyPeer n y k)).
    { destruct c; try (right; right; split; intros; discriminate); [left|right; left]; do 3 eexists; reflexivity. }
    destruct Hc as [[n [y [k ->]]]|[[n [y [k ->]]]|[H1 H2]]].
    + unfold after, answer. cbn [exec recorded]. unfold append_self_verification. rewrite verify_step by exact Hw.
      destruct (text_eqb n a && text_eqb y x); reflexivity.
    + unfold after, answer. cbn [exec recorded]. unfold append_peer_verification. rewrite verify_step by exact Hw.
      destruct (text_eqb n a && text_eqb y x); reflexivity.
    + assert (Hr : recorded a x c = None).
      { destruct c; try reflexivity; [destruct (H1 name addr pk)|destruct (H2 name addr pk)]; reflexivity. }
      rewrite Hr. destruct (after_path s c Hw) as [ls [Hp HF]]. rewrite Forall_forall in HF.
      assert (Hl : verif_log (after s c) a x = verif_log s a x).
      { unfold verif_log. erewrite path_frame; [reflexivity|exact Hp|]. intros l Hi. eapply scope_oob; eauto. }
      rewrite Hl. destruct (is_ok _); reflexivity.
Qed.
Lemma session_cons c h s : snd (session (c :: h) s) = answer s c :: snd (session h (after s c)).
Proof. unfold answer, after. cbn [session]. destruct (arun (exec c) s). cbn [fst snd]. destruct (session h a). reflexivity. Qed.
Lemma verif_history h : forall s a x, WF s -> isalnum a = true ->
  verif_log (after_all s h) a x = last_verified a x (combine h (snd (session h s))) (verif_log s a x).
Proof.
  induction h as [|c h IH]; intros s a x Hw Ha; [reflexivity|].
  rewrite after_all_cons, session_cons. cbn [combine last_verified]. rewrite IH by (auto using WF_after).
  rewrite verif_step by auto. reflexivity.
Qed.
Lemma c81_verified h a x : has_account (after_all ast0 h) a ->
  verif_of (after_all ast0 h) a x = Some (last_verified a x (combine h (snd (session h ast0))) None).
Proof.
  intros Hh. assert (Hw : WF (after_all ast0 h)) by (apply reachable_WF, reachable_after_all, reachable_init).
  apply has_account_exists in Hh; auto. rewrite verif_of_spec by auto. f_equal.
  apply (verif_history h ast0 a x); [apply reachable_WF, reachable_init|]. eapply exists_isalnum; eauto.
Qed.

(** ** Listed accounts *)
Lemma c81_accounts s : reachable s ->
  StronglySorted before (accounts_of s) /\
  (forall a, has_account s a -> In a (accounts_of s)) /\
  forall a, In a (accounts_of s) -> isalnum a = true.
Proof.
  intros Hr. apply reachable_WF in Hr. split; [apply accounts_strict, Hr|]. split; intros a H; [apply has_listed; auto|].
  eapply accounts_alnum; eauto.
Qed.
Lemma step_listed s l a : WF s -> guard s l -> isalnum a = true -> ~ removes a l -> alog s (own_chain a) <> [] -> alog (step l s) (own_chain a) <> [].
Proof.
  intros Hw Hg Ha Hr Hn.
  assert (Hd : ~ writes l (own_chain a) \/ exists b e, l = LCfg b e \/ exists kd kh, l = LKeygen b kd kh).
  { destruct l; simpl; try (left; intros H; first [eapply own_mgr; eauto; fail|eapply own_peer; eauto; fail|eapply own_oob; eauto; fail|exact H]).
    - right. do 2 eexists. left. reflexivity.
    - right. exists acct, (CfgEntry [] [] [] [] []). right. do 2 eexists. reflexivity.
    - left. intros H. rewrite match_account_own in H by exact Ha. apply text_eqb_eq in H. apply Hr. right. congruence.
    - left. intros _. apply Hr. left. reflexivity. }
  destruct Hd as [Hd|[b [e [->|[kd [kh ->]]]]]].
  - rewrite step_frame by exact Hd. exact Hn.
  - change (alog (app_log s (own_chain b) (ECfg e)) (own_chain a) <> []). rewrite alog_app.
    destruct (text_eqb _ _); [discriminate|exact Hn].
  - change (alog (app_log s (own_chain b) (EKeygen (KeygenEntry kd kh))) (own_chain a) <> []). rewrite alog_app.
    destruct (text_eqb _ _); [discriminate|exact Hn].
Qed.
Lemma path_listed s ls s' a : path s ls s' -> WF s -> isalnum a = true -> (forall l, In l ls -> ~ removes a l) ->
  alog s (own_chain a) <> [] -> alog s' (own_chain a) <> [].
Proof.
  induction 1 as [|s l ls s' Hg Hp IH]; intros Hw Ha Hl Hn; auto.
  apply IH; [apply step_WF; auto|exact Ha|intros; apply Hl; right; assumption|].
  apply step_listed; auto. apply Hl. left. reflexivity.
Qed.
Lemma c81_stays s c a : reachable s -> In a (accounts_of s) -> deletes a c = false -> In a (accounts_of (after s c)).
Proof.
  intros Hr Hi Hd. apply reachable_WF in Hr. pose proof (accounts_alnum s a Hr Hi) as Ha.
  apply accounts_In; [apply WF_after, Hr|]. apply accounts_In in Hi; [|exact Hr].
  destruct (after_path s c Hr) as [ls [Hp HF]]. rewrite Forall_forall in HF. eapply path_listed; eauto.
  intros l Hl. eapply scope_removes; eauto.
Qed.
Lemma scope_own c l a : api_scope c l -> writes l (own_chain a) -> isalnum a = true ->
  (exists mode, creates c = Some (a, mode)) \/ (names c = Some a /\ creates c = None) \/ l = LRm \/ l = LRemove a.
Proof.
  intros Hs Hw Ha.
  assert (Hl : l = LRm \/ l = LRemove a \/ (exists e, l = LCfg a e) \/ exists kd kh, l = LKeygen a kd kh).
  { destruct l; simpl in Hw; try tauto; try (exfalso; first [eapply own_mgr; eauto; fail|eapply own_peer; eauto; fail|eapply own_oob; eauto; fail]).
    - apply own_chain_inj in Hw. subst. right. right. left. eauto.
    - apply own_chain_inj in Hw. subst. right. right. right. eauto.
    - rewrite match_account_own in Hw by exact Ha. apply text_eqb_eq in Hw. subst. auto. }
  destruct Hl as [->|[->|[[e ->]|[kd [kh ->]]]]]; [tauto|tauto| |];
    (destruct c; simpl in *; unfold sc_a, sc_gpg in *; try discriminate; intuition (try discriminate); subst; eauto;
      repeat match goal with H : exists _, _ |- _ => destruct H end; intuition (try discriminate)).
Qed.

Lemma step_unlisted s l a : isalnum a = true -> (writes l (own_chain a) -> l = LRm \/ l = LRemove a) ->
  alog s (own_chain a) = [] -> alog (step l s) (own_chain a) = [].
Proof.
  intros Ha H Hn. destruct l; try (rewrite step_frame; [exact Hn|intros Hw; destruct (H Hw); discriminate]).
  - fold (removed s acct). destruct (text_eqb_spec acct a) as [->|Hna]; [apply removed_own, Ha|].
    rewrite removed_log. destruct (match_account _ _); [reflexivity|exact Hn].
  - reflexivity.
Qed.
Lemma path_unlisted s ls s' a : path s ls s' -> isalnum a = true -> (forall l, In l ls -> writes l (own_chain a) -> l = LRm \/ l = LRemove a) ->
  alog s (own_chain a) = [] -> alog s' (own_chain a) = [].
Proof.
  induction 1 as [|s l ls s' Hg Hp IH]; intros Ha H Hn; auto.
  apply IH; [exact Ha|intros l0 Hl; apply H; right; exact Hl|]. apply step_unlisted; auto. apply H. left. reflexivity.
Qed.
Lemma c81_appears s c a : reachable s -> In a (accounts_of (after s c)) -> ~ In a (accounts_of s) -> exists mode, creates c = Some (a, mode).
Proof.
  intros Hr Hi Hn. pose proof (reachable_WF s Hr) as Hw. pose proof (WF_after s c Hw) as Hw'.
  pose proof (accounts_alnum _ a Hw' Hi) as Ha.
  destruct (creates c) as [[n mode]|] eqn:Ec.
  - destruct (text_eqb_spec n a) as [->|Hna]; [eauto|]. exfalso. apply Hn.
    apply (proj1 (proj2 (c41_others s c n mode a Hr Ec (not_eq_sym Hna)))). exact Hi.
  - exfalso. assert (Hm : names c = Some a \/ names c <> Some a).
    { destruct (names c) as [n|]; [destruct (text_eqb_spec n a) as [->|]; [auto|right; congruence]|right; discriminate]. }
    destruct Hm as [En|En].
    + apply Hn. assert (Hh : ~ has_account s a) by (intros H; apply Hn, has_listed; auto).
      destruct (c47 s c a Hr En Ec Ha Hh) as [_ [H _]]. rewrite <- H. exact Hi.
    + apply accounts_In in Hi; auto. apply Hi. destruct (after_path s c Hw) as [ls [Hp HF]]. rewrite Forall_forall in HF.
      assert (Hnil : alog s (own_chain a) = []).
      { destruct (alog s (own_chain a)) eqn:El; [reflexivity|]. exfalso. apply Hn, accounts_In; auto. congruence. }
      eapply path_unlisted; eauto. intros l Hl Hwr.
      destruct (scope_own c l a (HF l Hl) Hwr Ha) as [[mode H]|[[H _]|H]]; [congruence|congruence|exact H].
Qed.
Lemma c81_created h a : In a (accounts_of (after_all ast0 h)) -> exists c mode, In c h /\ creates c = Some (a, mode).
Proof.
  induction h as [|c h IH] using rev_ind; intros Hi.
  - vm_compute in Hi. destruct Hi.
  - assert (Hs : after_all ast0 (h ++ [c]) = after (after_all ast0 h) c).
    { clear. revert h. assert (forall h s, after_all s (h ++ [c]) = after (after_all s h) c) as H; [|intros; apply H].
      induction h as [|d h IH]; intros s; cbn [app]; [rewrite after_all_cons; reflexivity|]. rewrite !after_all_cons. apply IH. }
    rewrite Hs in Hi. pose proof (reachable_after_all _ h reachable_init) as Hr.
    destruct (in_dec (list_eq_dec N.eq_dec) a (accounts_of (after_all ast0 h))) as [H|H].
    + destruct (IH H) as [d [mode [Hd Hc]]]. exists d, mode. split; [apply in_or_app; auto|exact Hc].
    + destruct (c81_appears _ c a Hr Hi H) as [mode Hc]. exists c, mode. split; [apply in_or_app; right; left; reflexivity|exact Hc].
Qed.
Lemma c81_deleted s c a x : reachable s -> deletes a c = true -> answer s c = Ok x -> ~ In a (accounts_of (after s c)).
Proof.
  intros Hr Hd Hx Hi. pose proof (reachable_WF s Hr) as Hw.
  assert (Hc : (c = ADel a \/ c = ACliDel a) \/ destroys s c \/ c = ACliDestroy true /\ version_log s = []).
  { destruct c; try discriminate Hd; cbn [deletes] in Hd.
    - apply text_eqb_eq in Hd. subst. auto.
    - right. left. left. reflexivity.
    - apply text_eqb_eq in Hd. subst. auto.
    - cbn [deletes_all] in Hd. subst. right. destruct (version_log s) eqn:Ev; [auto|]. left. right. split; [reflexivity|congruence]. }
  destruct Hc as [Hc|[Hc|[-> Hv]]].
  - assert (Hh : has_account s a).
    { apply has_account_exists; auto. destruct (exists_acct_dec s a) as [He|He]; [exact He|]. exfalso.
      destruct Hc as [->| ->]; unfold answer in Hx; cbn [exec] in Hx.
      - unfold del_account in Hx. rewrite !arun_bind, arun_get_account_none in Hx by exact He. discriminate.
      - unfold cli_del_account, del_account in Hx. rewrite !arun_bind, arun_get_account_none in Hx by exact He. discriminate. }
    destruct (c40_gone s a c Hr Hh Hc) as [H _]. rewrite H in Hi. apply filter_In in Hi. rewrite text_eqb_refl in Hi. destruct Hi; discriminate.
  - destruct (c46_run s c Hw Hc) as [_ Hs]. rewrite Hs in Hi. apply accounts_In in Hi; [apply Hi; reflexivity|].
    rewrite <- Hs. apply WF_after, Hw.
  - apply accounts_In in Hi; [|apply WF_after, Hw]. apply Hi.
    assert (Hn : version_of s = None).
    { destruct (version_of s) eqn:Ev; [|reflexivity]. exfalso. apply (proj1 (version_some s Hw)); [congruence|exact Hv]. }
    assert (Hl : a_logs s = []).
    { destruct (a_logs s) eqn:El; [reflexivity|]. exfalso. apply (wf_version s Hw); [congruence|exact Hn]. }
    assert (H : arun mgr_version s = (s, Ok (option_map ac_version (version_of s)))) by reflexivity.
    unfold after. cbn [exec]. unfold cli_destroy_all. rewrite !arun_bind, H, Hn. cbn [option_map].
    change (alog s (own_chain a) = []). unfold alog. rewrite Hl. reflexivity.
Qed.

(** ** Listed peers *)
Lemma heard_log l : peer_ok l -> l <> [] <-> (0 < last_seen l)%Z \/ latest_ac_entry l <> None \/ latest_gossip_entry l <> None.
Proof.
  intros Hp. split.
  - intros Hn. inversion Hp as [|t id d p kd kh l0 H0 H1 H2 H3|t id d l0 H0 H1 H2|t id d kd kh l0 H0 H1 H2]; subst; [congruence| | |].
    + right. left. unfold latest_ac_entry, msg_entries. cbn [flat_map bl_entry app find me_keydata]. rewrite H2. discriminate.
    + left. pose proof (peer_ok_nonneg _ H0). pose proof (peer_ok_seen _ H0). unfold last_seen, latest_msg_entry, msg_entries. cbn [flat_map bl_entry app hd_error me_date]. lia.
    + right. right. discriminate.
  - intros H ->. destruct H as [H|[H|H]]; [vm_compute in H; discriminate|apply H; reflexivity..].
Qed.
Lemma c81_peers s a l : reachable s -> peers_of s a = Some l ->
  StronglySorted before l /\
  forall x v, peer_of s a x = Some v -> In (norm x) l <-> heard_of v.
Proof.
  intros Hr Hl. pose proof (reachable_WF s Hr) as Hw.
  destruct (exists_acct_dec s a) as [He|He]; [|rewrite peers_of_none in Hl by exact He; discriminate].
  rewrite peers_of_spec in Hl by auto. injection Hl as <-. split; [apply peers_strict, Hw|].
  intros x v Hv. rewrite peer_of_spec in Hv by auto. injection Hv as <-.
  rewrite peers_In by exact Hw. unfold heard_of, view_of. cbn [pv_last_seen pv_latest_ac pv_latest_gossip].
  apply (heard_log (peer_log s a (norm x))). apply wf_peer, Hw.
Qed.
End ListsProofs.
