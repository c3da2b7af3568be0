(** Settings and deletions whose process is killed (C98). *)
From Verif Require Import Base PyStr Env Prog Chain Gpg Mime States Recommendation Account Cmdline Bot Fs Api Steps StepFacts Exec ApiScope Spec Obs PeerSpec
  AcctSpec AcctFacts AcctProofs AcctProofs2 KillSpec KillProofs.

Section Kill3.
Context {E : Env}.

Lemma atomic_mod n regex kh bin pref s : WF s -> exists_acct s n -> atomic (exec (AMod n regex kh bin pref)) s.
Proof.
  intros Hw He. cbn [exec]. apply atomic_then; [|intros [ch a] s' m; apply stop_ret]. unfold mod_account.
  apply atomic_bind; [intros m; apply stop_get_account; auto|]. intros a Ha.
  apply atomic_then; [apply atomic_change_config|intros; apply stop_ret].
Qed.
Lemma atomic_del n s : WF s -> exists_acct s n -> atomic (exec (ADel n)) s.
Proof.
  intros Hw He. cbn [exec]. apply atomic_then; [|intros u s' m; apply stop_ret]. unfold del_account.
  apply atomic_bind; [intros m; apply stop_get_account; auto|]. intros a Ha. apply atomic_remove.
Qed.

Theorem c98_all_or_nothing s c k n : reachable s -> sets_or_deletes c = Some n -> has_account s n ->
  killed s c k = s \/ killed s c k = after s c.
Proof.
  intros Hr Hc Ha. pose proof (reachable_WF s Hr) as Hw. apply has_account_exists in Ha; auto. unfold killed, after.
  destruct c; try discriminate; injection Hc as ->; [apply atomic_mod|apply atomic_del]; auto.
Qed.

Lemma mod_twice s n regex kh bin pref : WF s -> exists_acct s n -> let c := AMod n regex kh bin pref in after (after s c) c = after s c.
Proof.
  intros Hw He. cbv zeta. destruct He as [cfg [kg [Hc Hk]]]. pose proof (ex_intro _ cfg (ex_intro _ kg (conj Hc Hk)) : exists_acct s n) as He.
  destruct (mod_run s n cfg regex kh bin pref Hw He Hc) as [M1 M2].
  assert (Hex : forall t, fst (arun (exec (AMod n regex kh bin pref)) t) = fst (arun (mod_account n regex kh bin pref) t)).
  { intros t. cbn [exec]. rewrite arun_bind. destruct (arun (mod_account _ _ _ _ _) t) as [t1 [[ch a]|e]]; reflexivity. }
  assert (Hdec : preference pref \/ ~ preference pref).
  { pose proof (evolve_valid s n cfg regex bin pref Hw Hc) as Hv. destruct (valid_cfg _); [left; apply Hv; reflexivity|right; intros H; apply Hv in H; discriminate]. }
  destruct Hdec as [Hp|Hp].
  - unfold after at 2 3. rewrite Hex, (M1 Hp). cbn [fst]. set (c' := with_changes cfg regex bin pref).
    unfold modified. destruct (cfg_eqb c' cfg) eqn:Ee.
    + unfold after. rewrite Hex, (M1 Hp). cbn [fst]. unfold modified. fold c'. rewrite Ee. reflexivity.
    + set (s1 := app_log s (own_chain n) (ECfg c')).
      assert (H1 : after s (AMod n regex kh bin pref) = s1).
      { unfold after. rewrite Hex, (M1 Hp). cbn [fst]. unfold modified. fold c'. rewrite Ee. reflexivity. }
      assert (Hw1 : WF s1) by (rewrite <- H1; apply WF_after, Hw).
      assert (Hc1 : config_of s1 n = Some c') by apply config_app_cfg.
      assert (He1 : exists_acct s1 n) by (exists c', kg; split; [exact Hc1|unfold s1; rewrite keygen_app_cfg; exact Hk]).
      destruct (mod_run s1 n c' regex kh bin pref Hw1 He1 Hc1) as [N1 _]. unfold after. rewrite Hex, (N1 Hp). cbn [fst].
      assert (Hid : with_changes c' regex bin pref = c').
      { unfold c', with_changes. destruct regex, bin, pref; reflexivity. }
      unfold modified. rewrite Hid. assert (Hcc : cfg_eqb c' c' = true) by (apply cfg_eqb_spec; reflexivity). rewrite Hcc. reflexivity.
  - assert (H1 : after s (AMod n regex kh bin pref) = s) by (unfold after; rewrite Hex, (M2 Hp); reflexivity). rewrite !H1. reflexivity.
Qed.
Lemma del_twice s n : WF s -> exists_acct s n -> after (after s (ADel n)) (ADel n) = after s (ADel n).
Proof.
  intros Hw He. pose proof (exists_version s n Hw He) as Hv. pose proof (exists_isalnum s n Hw He) as Hn.
  assert (H1 : after s (ADel n) = removed s n) by (unfold after; cbn [exec]; rewrite arun_bind, del_run by auto; reflexivity).
  rewrite H1. assert (He1 : ~ exists_acct (removed s n) n).
  { intros [c [kg [Hc _]]]. unfold config_of in Hc. rewrite removed_own in Hc by exact Hn. discriminate. }
  unfold after. cbn [exec]. unfold del_account. rewrite !arun_bind, arun_get_account_none by exact He1. cbn [fst].
  apply inited_id. unfold version_of. rewrite removed_log, match_account_mgr. exact Hv.
Qed.
Theorem c98_again s c k n : reachable s -> sets_or_deletes c = Some n -> has_account s n -> after (killed s c k) c = after s c.
Proof.
  intros Hr Hc Ha. destruct (c98_all_or_nothing s c k n Hr Hc Ha) as [-> | ->]; [reflexivity|].
  pose proof (reachable_WF s Hr) as Hw. apply has_account_exists in Ha; auto.
  destruct c; try discriminate; injection Hc as ->; [apply mod_twice|apply del_twice]; auto.
Qed.
End Kill3.
