(** Proofs for C90. *)
From Verif Require Import Base PyStr Base64 Env Prog Chain Gpg Mime States Recommendation Account Cmdline Bot Fs Api Steps StepFacts Exec ApiScope
  Spec Obs PeerSpec OutSpec AcctSpec Incoming PeerFacts PeerProofs PeerProofs4 Quiet OutProofs AcctFacts AcctProofs AcctProofs2 Rings ImportProofs CliSpec CliProofs CliProofs2 CliProofs3
  HandleProofs SeenSpec SeenProofs LostSpec.

Section LostProofs.
Context {E : Env}.

(** ** Handles that gpg reports are not empty *)
Lemma may_import_nonempty g k m h : may (import_keydata g k m) h -> h <> [].
Proof.
  intros [s H]. destruct (arun (import_keydata g k m) s) as [s' r'] eqn:Er. cbn [snd] in H. subst r'. unfold import_keydata in Er.
  apply arun_bind_ok in Er as [s1 [[out err] [_ H2]]]. apply arun_bind_ok in H2 as [s2 [kh [H2 H3]]].
  assert (kh = h) as ->; [|eapply find_keyhandle_nonempty; exact H2].
  destruct m; [|apply arun_ret_ok in H3 as [_ ->]; reflexivity]. apply arun_bind_ok in H3 as [s3 [mini [_ H3]]].
  apply arun_bind_ok in H3 as [s4 [[o e] [_ H3]]]. apply arun_bind_ok in H3 as [s5 [[o2 e2] [_ H3]]]. apply arun_bind_ok in H3 as [s6 [kh2 [_ H3]]].
  apply arun_bind_ok in H3 as [s7 [u [H4 H3]]]. apply arun_ret_ok in H3 as [_ ->]. reflexivity.
Qed.
Lemma said_nonempty c a kd h : said c a kd (Some h) -> h <> [].
Proof. intros [g [k [_ [_ [H|[k0 [H _]]]]]]]; eapply may_import_nonempty; exact H. Qed.

Definition gossip_named (s : ast) : Prop := forall a x e, isalnum a = true -> In e (gossip_entries (peer_log s a x)) -> ge_kh e <> [].
Lemma gossip_named_step s l : guard s l -> gossip_named s -> gossip_named (step l s).
Proof.
  intros Hg Hs a x e Ha. destruct (step_gossips s l a x Hg Ha) as [->|[[-> _]|[id [d [k [h [-> ->]]]]]]]; [apply Hs; exact Ha|intros []|].
  intros [<-|He]; [|eapply Hs; eauto]. cbn [ge_kh]. destruct Hg as [_ [[c [_ Hsaid]] _]]. eapply said_nonempty; exact Hsaid.
Qed.
Lemma reachable_gossip_named s : reachable s -> gossip_named s.
Proof.
  intros Hr. assert (WF s /\ gossip_named s); [|tauto]. revert s Hr. apply reachable_ind.
  - split; [apply WF_init|]. intros a x e _ [].
  - intros s c n _ [Hw Hd]. destruct (killed_path c n s Hw) as [ls [Hp _]]. split; [eapply path_WF; eauto|]. revert Hd. apply path_inv with (ls := ls); [|exact Hp].
    intros s0 l Hg _. apply gossip_named_step; exact Hg.
Qed.

(** ** One call *)
Lemma import_run_handle a p s s' kh p' key : import_run a p s = (s', Ok (kh, p')) -> p_keydata p = Some key -> has_error p = false ->
  (exists h, kh = Some h /\ h <> []) \/ (kh = None /\ refused a key /\ p_error p' = Some (L "failed to import key")).
Proof.
  intros H Hk Hh. destruct kh as [h|]; [left; exists h; split; [reflexivity|eapply import_run_nonempty; exact H]|]. right. split; [reflexivity|].
  unfold import_run in H. rewrite Hh in H. unfold import_key in H. rewrite arun_bind in H.
  destruct (arun (get_bingpg a) s) as [s1 [g|]] eqn:Eg; [|discriminate]. rewrite Hk, arun_catch, arun_bind in H.
  destruct (arun (import_keydata g key false) s1) as [s2 [h|e]] eqn:Ei; [discriminate|].
  destruct e; try discriminate. cbn in H. injection H as _ <-. split; [|reflexivity].
  exists s, g, s1. rewrite Eg, Ei. split; reflexivity.
Qed.
Lemma lost_step s c a x : WF s -> exists_acct s a -> plain a c = true ->
  let ms := msg_entries (peer_log s a x) in let ms' := msg_entries (peer_log (after s c) a x) in
  ac_of ms' = ac_of ms \/
  exists e, ac_of ms' = Some e /\ offered s c a x (offer_of e) /\ (me_kh e <> [] \/ (me_kh e = [] /\ refused a (me_keydata e) /\ told_refused s c)).
Proof.
  intros Hw He Hp. cbv zeta. pose proof (exists_isalnum s a Hw He) as Ha.
  destruct (incoming_dec a c) as [[m [ign [nd ->]]]|Hc].
  2:{ destruct (after_msgs c a x s Hw (plain_deletes a c Hp) Ha) as [new [H1 H2]]. destruct new as [|e new]; [left; rewrite H1; reflexivity|].
      exfalso. inversion H2. eapply plain_origin; eauto. }
  unfold told_refused. destruct (answer_incoming s a m ign nd Hw He) as [-> ->].
  destruct (incoming_effect a m ign nd s Hw He) as [e Hl Hr|Hl Hr Hi Hm|d p s1 kh p' ls Hd Hpar Hi Hl1 Hn Hpath HF Hr].
  1,2: left; rewrite (logs_peer _ _ _ _ Hl); reflexivity.
  rewrite (gossip_path_msgs _ _ _ _ _ _ _ Hpath HF a x Ha).
  destruct (step_msg_log s1 a (sender_of m) (msg_id_text m) (Z.min d (clock (a_tick s))) (p_pref p) (p_keydata p) kh x) as [-> _].
  rewrite !(logs_peer s s1) by exact Hl1. destruct (text_eqb_spec x (sender_of m)) as [->|Hx]; [|left; reflexivity].
  pose proof (wf_peer s Hw a (sender_of m)) as Hok.
  destruct (decide_ac (peer_log s a (sender_of m)) (msg_id_text m) (Z.min d (clock (a_tick s))) (p_pref p) (p_keydata p) kh)
    as [H|[pr [k [Hpr [Hk [Hne [Hv [Hge H]]]]]]]]; [left; exact H|]. right.
  eexists. split; [exact H|]. pose proof (peer_ok_nonneg _ Hok).
  destruct (parse_carries m p Hpar) as [[Hf _]|[key [pr' [ex [-> [_ Hc]]]]]]; [congruence|].
  cbn [p_pref p_keydata] in Hpr, Hk. injection Hpr as <-. injection Hk as <-. split.
  - exists m, ign, nd, d. split; [reflexivity|]. split; [reflexivity|]. split; [exact Hd|]. split; [reflexivity|]. split; [reflexivity|].
    split; [cbn; lia|]. split; [apply nonempty_true; exact Hne|]. exact Hc.
  - destruct (import_run_handle _ _ _ _ _ _ key Hi eq_refl eq_refl) as [[h [-> Hh]]|[-> [Hh Ht]]]; [left; exact Hh|]. right.
    split; [reflexivity|]. split; [exact Hh|]. intros i Hans.
    destruct Hr as [[e Hr]|[g Hr]]; rewrite Hr in Hans; [discriminate|]. injection Hans as <-. exact Ht.
Qed.

(** ** A session *)
Lemma lost_history h : forall s a x, WF s -> exists_acct s a -> (forall c, In c h -> plain a c = true) ->
  let ms := msg_entries (peer_log s a x) in let ms' := msg_entries (peer_log (after_all s h) a x) in
  ac_of ms' = ac_of ms \/
  exists h1 c h2 e, h = h1 ++ c :: h2 /\ ac_of ms' = Some e /\ offered (after_all s h1) c a x (offer_of e) /\
    (me_kh e <> [] \/ (me_kh e = [] /\ refused a (me_keydata e) /\ told_refused (after_all s h1) c)).
Proof.
  induction h as [|c h IH]; intros s a x Hw He Hp; cbv zeta; [left; reflexivity|].
  rewrite after_all_cons. assert (Hc : plain a c = true) by (apply Hp; simpl; auto).
  destruct (IH (after s c) a x) as [H|[h1 [c1 [h2 [e [-> [H1 H2]]]]]]].
  { apply WF_after; exact Hw. } { apply after_exists; auto. apply plain_deletes; exact Hc. } { intros; apply Hp; simpl; auto. }
  - rewrite H. destruct (lost_step s c a x Hw He Hc) as [H1|[e [H1 H2]]]; [left; exact H1|].
    right. exists [], c, h, e. auto.
  - right. exists (c :: h1), c1, h2, e. rewrite after_all_cons. auto.
Qed.

Theorem c90 : forall s h a x v, reachable s -> peer_of s a x = Some v -> pv_keyhandle v <> [] -> (forall c, In c h -> plain a c = true) ->
  exists v', peer_of (after_all s h) a x = Some v' /\
    (pv_keyhandle v' <> [] \/
     exists h1 c h2 e, h = h1 ++ c :: h2 /\ pv_latest_ac v' = Some e /\ offered (after_all s h1) c a (norm x) (offer_of e) /\
       me_kh e = [] /\ refused a (me_keydata e) /\ told_refused (after_all s h1) c).
Proof.
  intros s h a x v Hr Hv Hn Hp. pose proof (reachable_WF s Hr) as Hw. destruct (peer_of_some s a x v Hw Hv) as [He ->].
  assert (He' : exists_acct (after_all s h) a) by (apply after_all_exists; auto; intros; apply plain_deletes; auto).
  pose proof (reachable_WF _ (reachable_after_all s h Hr)) as Hw'. pose proof (exists_isalnum s a Hw He) as Ha.
  eexists. split; [apply peer_of_spec; auto|]. rewrite view_ac. cbn [view_of pv_keyhandle] in *.
  destruct (lost_history h s a (norm x) Hw He Hp) as [H|[h1 [c [h2 [e [-> [H1 [H2 [H3|H3]]]]]]]]].
  - left. destruct (gossip_hist h s a (norm x) Hw He Hp) as [Hg _].
    pose proof (reachable_gossip_named _ (reachable_after_all s h Hr) a (norm x)) as Hnamed.
    unfold public_keyhandle, entry_for_encryption, has_direct_key in *. rewrite !ac_of_log in *. rewrite H.
    destruct (match ac_of (msg_entries (peer_log s a (norm x))) with Some e => nonempty (me_kh e) | None => false end) eqn:Ed; [exact Hn|].
    unfold latest_gossip_entry in *. destruct (gossip_entries (peer_log (after_all s h) a (norm x))) as [|e l] eqn:El.
    + cbn [hd_error] in Hg. destruct Hg as [Hg|[g [Hg _]]]; [|discriminate]. rewrite <- Hg in Hn. exact Hn.
    + cbn [hd_error option_map]. apply Hnamed; [exact Ha|left; reflexivity].
  - left. unfold public_keyhandle, entry_for_encryption, has_direct_key. rewrite !ac_of_log, H1. apply nonempty_true in H3. rewrite H3.
    cbn [option_map]. apply nonempty_true. exact H3.
  - right. exists h1, c, h2, e. destruct H3 as [H3 [H4 H5]]. auto 8.
Qed.

Theorem c90_good : forall s h a x v, reachable s -> peer_of s a x = Some v -> pv_keyhandle v <> [] -> (forall c, In c h -> plain a c = true) ->
  (forall f, offered_in s h a (norm x) f -> exists kh, imports_as a (of_key f) kh) ->
  exists v', peer_of (after_all s h) a x = Some v' /\ pv_keyhandle v' <> [].
Proof.
  intros s h a x v Hr Hv Hn Hp Hi. destruct (c90 s h a x v Hr Hv Hn Hp) as [v' [V1 [V2|[h1 [c [h2 [e [-> [_ [H1 [_ [[s0 [g [s1 [H2 H3]]]] _]]]]]]]]]]]]; [eauto|].
  destruct (Hi (offer_of e)) as [kh Hk]; [exists h1, c, h2; auto|]. specialize (Hk s0 g s1 H2). cbn [offer_of of_key] in Hk. congruence.
Qed.

End LostProofs.
