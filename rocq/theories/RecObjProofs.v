(** Proofs for C93. *)
From Verif Require Import Base PyStr Base64 Env Prog Chain Gpg Mime States Recommendation Account Cmdline Bot Fs Api Steps StepFacts Exec ApiScope Spec Obs PeerSpec PeerFacts RecSpec RecProofs OutSpec OutProofs TalkSpec TalkProofs RecObj.

Section RecObjProofs.
Context {E : Env}.

Lemma get_recommendation_run s a c k xs reply from : reachable s -> own_of s a = Some (c, k) ->
  arun (get_recommendation a xs reply from) s = (s, Ok (RecObj (rec_peers a xs from) (cf_pref c) reply)).
Proof.
  intros Hr Ho. pose proof (reachable_WF s Hr) as Hw.
  assert (Hc : config_of s a = Some c) by (rewrite own_of_spec in Ho by exact Hw; destruct (config_of s a), (keygen_of s a); congruence).
  unfold get_recommendation. rewrite arun_bind, arun_own_config, Hc. reflexivity.
Qed.

Lemma made_in s a c k p xs reply from : reachable s -> own_of s a = Some (c, k) -> cf_pref c = p ->
  arun (get_recommendation a xs reply from) s = (s, Ok (RecObj (rec_peers a xs from) p reply)).
Proof. intros Hr Ho <-. apply (get_recommendation_run s a c k); assumption. Qed.
Lemma own_config_of s a c k : WF s -> own_of s a = Some (c, k) -> config_of s a = Some c.
Proof. intros Hw Ho. rewrite own_of_spec in Ho by exact Hw. destruct (config_of s a), (keygen_of s a); congruence. Qed.

(** the object is as good as a new one while the preference is the same *)
Theorem c93_same : forall s s2 a c k c2 k2 xs reply from o, reachable s -> own_of s a = Some (c, k) ->
  arun (get_recommendation a xs reply from) s = (s, Ok o) -> reachable s2 -> own_of s2 a = Some (c2, k2) -> cf_pref c2 = cf_pref c ->
  arun (get_recommendation a xs reply from) s2 = (s2, Ok o) /\ arun (ro_ui o) s2 = arun (recommend a xs reply from) s2.
Proof.
  intros s s2 a c k c2 k2 xs reply from o Hr Ho Hg Hr2 Ho2 Hp. rewrite (get_recommendation_run s a c k) in Hg by assumption. injection Hg as <-.
  split; [rewrite (get_recommendation_run s2 a c2 k2) by assumption; rewrite Hp; reflexivity|].
  unfold recommend, ro_ui. rewrite arun_bind, arun_own_config, (own_config_of s2 a c2 k2 (reachable_WF s2 Hr2) Ho2), Hp. reflexivity.
Qed.

Lemma ui_run s a pref xs reply from : WF s -> valid_pref pref = true ->
  exists r, arun (ro_ui (RecObj (rec_peers a xs from) pref reply)) s = (s, Ok (Some r)) /\ overall s a pref reply (asked xs from) r.
Proof.
  intros Hw Hp. unfold ro_ui. cbn [ro_peers ro_pref ro_reply].
  unfold ui_recommendation. rewrite arun_bind.
  pose proof (rec_peers_In a xs from) as Hin. set (ns := map snd (rec_peers a xs from)) in *.
  rewrite mapM_recs.
  2:{ intros n Hn. apply Hin in Hn. destruct Hn as [x [_ ->]]. apply (wf_peer s Hw). }
  destruct (asked xs from) as [|x0 ys] eqn:Ea.
  - assert (Hns : ns = []) by (destruct ns as [|n ns']; [reflexivity|]; destruct (proj1 (Hin n) (or_introl eq_refl)) as [x [[] _]]).
    rewrite Hns. cbn [map aggregate overall]. unfold valid_pref in Hp.
    apply mem_text_In in Hp. destruct Hp as [<-|[<-|[]]]; eexists; split; reflexivity.
  - assert (Hns : ns <> []).
    { intros H0. assert (Hx : In (peerstate_chain a x0) ns) by (apply Hin; exists x0; simpl; auto). rewrite H0 in Hx. destruct Hx. }
    destruct (find_four (map (advice_for s pref reply) ns)) as [r [n [H1 [H2 [H3 H4]]]]].
    { destruct ns; [congruence|discriminate]. }
    { intros r Hr. apply in_map_iff in Hr. destruct Hr as [m [<- _]]. apply rank_four. apply advice_rank. }
    exists r. split.
    + unfold aggregate. destruct ns as [|n0 ns']; [congruence|]. cbn [map]. cbn [map] in H1. fold four. rewrite H1. reflexivity.
    + cbn [overall]. apply in_map_iff in H2. destruct H2 as [m [Hm Hm2]]. apply Hin in Hm2. destruct Hm2 as [x [Hx ->]].
      exists n, x. split; [exact Hx|]. split; [auto|]. split; [exact H3|].
      intros y q Hy Hq. apply (H4 _ q) in Hq; [exact Hq|]. apply in_map. apply Hin. exists y. auto.
Qed.

(** in general: what is known about the peers now, with the preference of then *)
Theorem c93_kept : forall s s2 a c k xs reply o, reachable s -> own_of s a = Some (c, k) ->
  arun (get_recommendation a (map Some xs) reply None) s = (s, Ok o) -> reachable s2 -> has_account s2 a ->
  exists r, arun (ro_ui o) s2 = (s2, Ok (Some r)) /\
    (xs = [] -> r = if text_eqb (cf_pref c) mutual then L "encrypt" else L "available") /\
    (xs <> [] -> exists x v n, In x xs /\ peer_of s2 a (norm x) = Some v /\ r = advice (cf_pref c) reply v /\ rank r n /\
       forall y w m, In y xs -> peer_of s2 a (norm y) = Some w -> rank (advice (cf_pref c) reply w) m -> (n <= m)%nat).
Proof.
  intros s s2 a c k xs reply o Hr Ho Hg Hr2 Ha. pose proof (reachable_WF s Hr) as Hw. pose proof (reachable_WF s2 Hr2) as Hw2.
  rewrite (get_recommendation_run s a c k) in Hg by assumption. injection Hg as <-.
  destruct (ui_run s2 a (cf_pref c) (map Some xs) reply None Hw2 (wf_pref s a c Hw (own_config_of s a c k Hw Ho))) as [r [H1 H2]].
  exists r. split; [exact H1|]. rewrite asked_all in H2.
  destruct xs as [|x0 xs]; [split; [intros _; exact H2|congruence]|]. split; [discriminate|]. intros _. cbn [overall map] in H2.
  destruct H2 as [n [x [Hx [Hrx [Hrk Hmin]]]]]. change (In x (map norm (x0 :: xs))) in Hx. apply in_map_iff in Hx as [y [<- Hy]].
  assert (He : exists_acct s2 a) by (apply has_account_exists; assumption).
  exists y. eexists. exists n. split; [exact Hy|]. split; [apply peer_of_spec; assumption|]. split; [exact Hrx|]. split; [exact Hrk|].
  intros z w m Hz Hpw Hm. rewrite (peer_advice s2 a z w (cf_pref c) reply Hr2 Hpw) in Hm. eapply Hmin; [|exact Hm].
  change (In (norm z) (map norm (x0 :: xs))). apply in_map. exact Hz.
Qed.

(** the key handles are always the current ones *)
Theorem c93_handles : forall s s2 a c k xs reply o, reachable s -> own_of s a = Some (c, k) ->
  arun (get_recommendation a (map Some xs) reply None) s = (s, Ok o) -> reachable s2 -> has_account s2 a ->
  exists l, arun (ro_handles o) s2 = (s2, Ok l) /\ NoDup (map fst l) /\
    forall y kh, In (y, kh) l <-> (exists x, In x xs /\ norm x = y) /\ exists v, peer_of s2 a y = Some v /\ pv_keyhandle v = kh.
Proof.
  intros s s2 a c k xs reply o Hr Ho Hg Hr2 Ha. rewrite (get_recommendation_run s a c k) in Hg by assumption. injection Hg as <-.
  exact (c66_handles s2 a xs Hr2 Ha).
Qed.
End RecObjProofs.
