(** Running the observation calls. *)
From Verif Require Import Base PyStr Env Prog Chain Gpg Mime States Recommendation Account Cmdline Bot Fs Api Steps StepFacts Exec ApiScope Spec.

Section Obs.
Context {E : Env}.

Lemma after_all_nil s : after_all s [] = s. Proof. reflexivity. Qed.
Lemma after_all_cons s c h : after_all s (c :: h) = after_all (after s c) h.
Proof.
  unfold after_all, after. simpl. destruct (arun (exec c) s) as [s1 r]. simpl.
  destruct (session h s1); reflexivity.
Qed.
Lemma after_all_app s h1 h2 : after_all s (h1 ++ h2) = after_all (after_all s h1) h2.
Proof. revert s; induction h1; intros; simpl; auto. rewrite !after_all_cons. auto. Qed.
Lemma reachable_after s c : reachable s -> reachable (after s c).
Proof. apply reachable_step. Qed.
Lemma reachable_after_all s h : reachable s -> reachable (after_all s h).
Proof. revert s; induction h; intros s H; auto. rewrite after_all_cons. apply IHh, reachable_after, H. Qed.
Lemma reachable_init : reachable ast0. Proof. exists []. reflexivity. Qed.
Lemma reached_after_all s h : reached s -> reached (after_all s h).
Proof. intros [h0 ->]. exists (h0 ++ h). symmetry. apply after_all_app. Qed.
Lemma reached_after s c : reached s -> reached (after s c).
Proof. intros H. replace (after s c) with (after_all s [c]); [apply reached_after_all, H|]. rewrite after_all_cons. reflexivity. Qed.
Lemma WF_after s c : WF s -> WF (after s c).
Proof.
  intros Hw. destruct (exec_path c s Hw) as [ls [Hp _]]. eapply path_WF; eauto.
Qed.

(** ** get_account *)
Lemma exists_version s a : WF s -> exists_acct s a -> version_of s <> None.
Proof. intros Hw [c [kg [Hc _]]]. apply (config_version s Hw a). congruence. Qed.
Lemma exists_isalnum s a : WF s -> exists_acct s a -> isalnum a = true.
Proof.
  intros Hw [c [kg [Hc _]]]. destruct (wf_own s Hw a) as [H|[H _]]; auto.
  unfold config_of in Hc. rewrite H in Hc. discriminate.
Qed.

Lemma arun_get_account s a : WF s -> exists_acct s a -> arun (get_account a true) s = (s, Ok a).
Proof.
  intros Hw He. unfold get_account. rewrite arun_bind, arun_ensure_init.
  pose proof (exists_version s a Hw He) as Hv. destruct (version_of s); [|congruence].
  rewrite (exists_isalnum s a Hw He). cbn [assert_ bind].
  unfold account_exists. cbn [bind perform]. unfold arun. cbn [run astep].
  apply is_configured_exists in He. rewrite He. reflexivity.
Qed.

(** state after [get_account] of an unknown account: at most the version was set *)
Definition inited (s : ast) : ast := fst (arun ensure_init s).
Lemma inited_own s a : alog (inited s) (own_chain a) = alog s (own_chain a).
Proof.
  unfold inited. rewrite arun_ensure_init. destruct (version_of s); [reflexivity|].
  cbn [fst]. rewrite alog_app. destruct (text_eqb_spec (own_chain a) mgr_chain); [exfalso; eapply own_mgr; eauto|reflexivity].
Qed.
Lemma arun_get_account_none s a : ~ exists_acct s a ->
  arun (get_account a true) s = (inited s, Err (if isalnum a then AccountNotFound else AssertionError)).
Proof.
  intros He. unfold get_account. rewrite arun_bind.
  assert (H : arun ensure_init s = (inited s, Ok tt)).
  { unfold inited. rewrite arun_ensure_init. destruct (version_of s); reflexivity. }
  rewrite H. destruct (isalnum a); cbn [assert_ bind]; [|reflexivity].
  unfold account_exists. cbn [bind perform]. unfold arun. cbn [run astep].
  rewrite inited_own. destruct (is_configured _) eqn:Ec; [|reflexivity].
  exfalso. apply He, is_configured_exists, Ec.
Qed.

Lemma exists_acct_dec s a : exists_acct s a \/ ~ exists_acct s a.
Proof.
  destruct (is_configured (alog s (own_chain a))) eqn:Ec.
  - left. apply is_configured_exists, Ec.
  - right. intros H. apply is_configured_exists in H. congruence.
Qed.

Lemma arun_with_account {A} s a (f : text -> prog cop A) : WF s -> exists_acct s a ->
  arun (with_account a f) s = arun (f a) s.
Proof. intros Hw He. unfold with_account. rewrite arun_bind, arun_get_account; auto. Qed.
Lemma arun_with_account_none {A} s a (f : text -> prog cop A) : ~ exists_acct s a ->
  arun (with_account a f) s = (inited s, Err (if isalnum a then AccountNotFound else AssertionError)).
Proof. intros He. unfold with_account. rewrite arun_bind, arun_get_account_none; auto. Qed.

(** ** The observations *)
Lemma arun_own_config s a : arun (own_config a) s =
  (s, match config_of s a with Some c => Ok c | None => Err AttributeError end).
Proof. unfold own_config, config_of, arun. cbn [bind perform run astep]. destruct (latest_config _); reflexivity. Qed.
Lemma arun_own_keyhandle s a : arun (own_keyhandle a) s =
  (s, match keygen_of s a with Some k => Ok (kg_kh k) | None => Err AttributeError end).
Proof. unfold own_keyhandle, keygen_of, arun. cbn [bind perform run astep]. destruct (latest_keygen _); reflexivity. Qed.

Lemma own_of_spec s a : WF s -> own_of s a =
  match config_of s a, keygen_of s a with Some c, Some k => Some (c, kg_kh k) | _, _ => None end.
Proof.
  intros Hw. unfold own_of, answer. cbn [exec].
  destruct (exists_acct_dec s a) as [He|He].
  - rewrite arun_with_account by auto. destruct He as [c [k [Hc Hk]]].
    rewrite arun_bind, arun_own_config, Hc, arun_bind, arun_own_keyhandle, Hk. reflexivity.
  - rewrite arun_with_account_none by auto. cbn [snd].
    destruct (config_of s a) eqn:Ec, (keygen_of s a) eqn:Ek; try reflexivity.
    exfalso. apply He. unfold exists_acct. eauto.
Qed.
Lemma has_account_exists s a : WF s -> has_account s a <-> exists_acct s a.
Proof.
  intros Hw. unfold has_account, exists_acct. rewrite own_of_spec by auto.
  destruct (config_of s a), (keygen_of s a); split; try congruence; eauto;
    intros [x [y [H1 H2]]]; congruence.
Qed.

Lemma peer_of_spec s a x : WF s -> exists_acct s a ->
  peer_of s a x = Some (view_of (peer_chain a (norm x)) (peer_log s a (norm x))).
Proof. intros Hw He. unfold peer_of, answer. cbn [exec]. rewrite arun_with_account by auto. reflexivity. Qed.
Lemma peer_of_none s a x : ~ exists_acct s a -> peer_of s a x = None.
Proof. intros He. unfold peer_of, answer. cbn [exec]. rewrite arun_with_account_none by auto. reflexivity. Qed.
Lemma peer_of_some s a x v : WF s -> peer_of s a x = Some v ->
  exists_acct s a /\ v = view_of (peer_chain a (norm x)) (peer_log s a (norm x)).
Proof.
  intros Hw H. destruct (exists_acct_dec s a) as [He|He].
  - rewrite peer_of_spec in H by auto. split; [exact He|congruence].
  - rewrite peer_of_none in H by auto. discriminate.
Qed.

Definition peer_names (s : ast) (a : text) : list text := sorted (with_prefix (peer_prefix a) (dkeys (a_logs s))).
Lemma peers_of_spec s a : WF s -> exists_acct s a -> peers_of s a = Some (peer_names s a).
Proof. intros Hw He. unfold peers_of, answer. cbn [exec]. rewrite arun_with_account by auto. reflexivity. Qed.
Lemma verif_of_spec s a x : WF s -> exists_acct s a ->
  verif_of s a x = Some (find (fun e => text_eqb x (ve_addr e)) (verif_entries (alog s (oob_chain a)))).
Proof. intros Hw He. unfold verif_of, answer. cbn [exec]. rewrite arun_with_account by auto. reflexivity. Qed.
Lemma verif_of_none s a x : ~ exists_acct s a -> verif_of s a x = None.
Proof. intros He. unfold verif_of, answer. cbn [exec]. rewrite arun_with_account_none by auto. reflexivity. Qed.
Lemma accounts_of_spec s : accounts_of s = sorted (with_prefix (own_chain []) (dkeys (a_logs s))).
Proof. reflexivity. Qed.

(** ** Frame: observations depend only on the logs they read *)
Lemma exists_acct_frame s s' a : alog s' (own_chain a) = alog s (own_chain a) -> exists_acct s a -> exists_acct s' a.
Proof. unfold exists_acct, config_of, keygen_of. intros ->. auto. Qed.
Lemma own_of_frame s s' a : WF s -> WF s' -> alog s' (own_chain a) = alog s (own_chain a) -> own_of s' a = own_of s a.
Proof. intros H1 H2 H. rewrite !own_of_spec by auto. unfold config_of, keygen_of. rewrite H. reflexivity. Qed.
Lemma peer_of_frame s s' a x : WF s -> WF s' -> alog s' (own_chain a) = alog s (own_chain a) ->
  alog s' (peer_chain a (norm x)) = alog s (peer_chain a (norm x)) -> peer_of s' a x = peer_of s a x.
Proof.
  intros H1 H2 Ho Hp. destruct (exists_acct_dec s a) as [He|He].
  - rewrite !peer_of_spec; auto. { unfold peer_log. rewrite Hp. reflexivity. } eapply exists_acct_frame; eauto.
  - rewrite !peer_of_none; auto. intros Hc. apply He. eapply exists_acct_frame; [|exact Hc]. auto.
Qed.
Lemma verif_of_frame s s' a x : WF s -> WF s' -> alog s' (own_chain a) = alog s (own_chain a) ->
  alog s' (oob_chain a) = alog s (oob_chain a) -> verif_of s' a x = verif_of s a x.
Proof.
  intros H1 H2 Ho Hp. destruct (exists_acct_dec s a) as [He|He].
  - rewrite !verif_of_spec; auto. { rewrite Hp. reflexivity. } eapply exists_acct_frame; eauto.
  - rewrite !verif_of_none; auto. intros Hc. apply He. eapply exists_acct_frame; [|exact Hc]. auto.
Qed.

(** ** Steps of a call *)
Lemma after_path s c : WF s -> exists ls, path s ls (after s c) /\ Forall (api_scope c) ls.
Proof. apply exec_path. Qed.

End Obs.
