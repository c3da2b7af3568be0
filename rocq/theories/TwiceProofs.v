(** Processing an encrypted mail again (C13). *)
From Verif Require Import Base PyStr Base64 Env Prog Chain Gpg Mime States Recommendation Account Cmdline Bot Fs Api Steps StepFacts Exec ApiScope Spec Obs PeerSpec Incoming
  PeerFacts PeerProofs PeerProofs2 PeerProofs3 PeerProofs4 Quiet HeaderSpec HeaderProofs OutSpec OutProofs OutProofs2 GossipProofs.

Section Twice.
Context {E : Env}.
Open Scope Z_scope.

Definition settled (l : list block) (id : text) (date : Z) (key : bytes) (kh : text) : Prop :=
  gossip_decide l id date (Some key) (Some kh) = Ok None.
Lemma settled_once l id date key kh o t : gossip_decide l id date (Some key) (Some kh) = Ok o ->
  settled (match o with Some e => Block t e :: l | None => l end) id date key kh.
Proof.
  intros H. destruct o as [e|]; [|exact H]. pose proof (gossip_decide_some _ _ _ _ _ _ H) as [Hts [k [h [Hk [Hn [Hh ->]]]]]].
  injection Hk as <-. injection Hh as <-. unfold settled, gossip_decide.
  change (autocrypt_timestamp (Block t (EGossip (GossipEntry id date key kh)) :: l)) with (autocrypt_timestamp l).
  destruct (Z.ltb_spec date (autocrypt_timestamp l)); [reflexivity|]. cbv zeta. rewrite Hn. cbn [negb].
  unfold get_gossip_message_entry. cbn [gossip_entries bl_entry find ge_id]. rewrite text_eqb_refl.
  cbn [ge_date ge_keydata ge_kh eq_opt]. rewrite Z.eqb_refl, !text_eqb_refl. reflexivity.
Qed.
Lemma import_key_kh a p s s' kh p' key h : arun (import_key a p) s = (s', Ok (kh, p')) -> p_keydata p = Some key ->
  imports_as a key h -> kh = Some h /\ p' = p.
Proof.
  intros Hi Hk Himp. unfold import_key in Hi. rewrite arun_bind in Hi.
  specialize (Himp s). destruct (arun (get_bingpg a) s) as [s1 [g|]]; [|discriminate]. rewrite Hk, arun_catch, arun_bind in Hi.
  specialize (Himp g s1 eq_refl). destruct (arun (import_keydata g key false) s1) as [s2 [h'|e]]; cbn [snd] in Himp; [|discriminate].
  injection Himp as ->. cbn in Hi. injection Hi as _ <- <-. auto.
Qed.
Definition good (a : text) (d : dict pah) : Prop :=
  forall r p, dget d r = Some p -> norm r = r /\ exists key kh, p_keydata p = Some key /\ imports_as a key kh.
Lemma chain_norm a r r' : norm r = r -> norm r' = r' -> peerstate_chain a r = peerstate_chain a r' -> r = r'.
Proof. intros H1 H2 H. change (peer_chain a (norm r) = peer_chain a (norm r')) in H. apply peer_chain_addr_inj in H. congruence. Qed.

Lemma fold_settles a date id rs : forall d pr s s' d' pr', good a d ->
  arun (foldM (gossip_recipient a date id) rs (d, pr)) s = (s', Ok (d', pr')) ->
  forall r p key kh, dget d r = Some p -> p_keydata p = Some key -> imports_as a key kh ->
    (settled (alog s (peerstate_chain a r)) id date key kh \/ In r rs) -> settled (alog s' (peerstate_chain a r)) id date key kh.
Proof.
  induction rs as [|x rs IH]; intros d pr s s' d' pr' Hg H r p key kh Hr Hk Hi Hs; cbn [foldM] in H.
  - apply arun_ret_ok in H as [-> _]. destruct Hs as [Hs|[]]. exact Hs.
  - apply arun_bind_ok in H as [s1 [[d1 pr1] [H1 H]]]. unfold gossip_recipient in H1. destruct (dget d x) as [px|] eqn:Ex.
    + apply arun_bind_ok in H1 as [s2 [[h p'] [H2 H1]]]. pose proof (import_key_logs a px s) as Hl. rewrite H2 in Hl. cbn [fst] in Hl.
      destruct (Hg x px Ex) as [Hnx [keyx [khx [Hkx Hix]]]]. destruct (import_key_kh a px s s2 h p' keyx khx H2 Hkx Hix) as [-> ->].
      apply arun_bind_ok in H1 as [s3 [[] [H3 H1]]]. apply arun_ret_ok in H1 as [-> [= -> ->]].
      rewrite update_from_msg_gossip_run, Hkx in H3.
      assert (Hg' : good a (dset d x px)).
      { intros q pq. rewrite dget_dset. destruct (text_eqb_spec q x) as [->|]; [intros [= <-]; eauto|apply Hg]. }
      assert (Hr' : dget (dset d x px) r = Some p).
      { rewrite dget_dset. destruct (text_eqb_spec r x) as [->|]; [congruence|exact Hr]. }
      apply (IH _ _ _ _ _ _ Hg' H r p key kh Hr' Hk Hi).
      destruct (text_eqb_spec r x) as [->|Hrx].
      * left. assert (px = p) by congruence. subst px. assert (keyx = key) by congruence. subst keyx.
        assert (khx = kh).
        { unfold import_key in H2. apply arun_bind_ok in H2 as [s4 [g [G1 _]]].
          pose proof (Hi s g s) as J1. pose proof (Hix s g s) as J2. rewrite G1 in J1, J2. specialize (J1 eq_refl). specialize (J2 eq_refl). congruence. }
        subst khx. unfold decided in H3. destruct (gossip_decide (alog s2 (peerstate_chain a x)) id date (Some key) (Some kh)) as [[e|]|] eqn:Ed; [| |discriminate]; injection H3 as <-.
        -- rewrite alog_app, text_eqb_refl. exact (settled_once _ _ _ _ _ _ (clock (a_tick s2)) Ed).
        -- exact Ed.
      * assert (Hne : peerstate_chain a r <> peerstate_chain a x) by (intros Hc; apply Hrx; apply (chain_norm a); [apply (Hg r p Hr)|exact Hnx|exact Hc]).
        assert (Hsame : alog s3 (peerstate_chain a r) = alog s (peerstate_chain a r)).
        { transitivity (alog s2 (peerstate_chain a r)); [|unfold alog; rewrite Hl; reflexivity].
          unfold decided in H3. destruct (gossip_decide _ id date _ _) as [[e|]|]; [| |discriminate]; injection H3 as <-; [|reflexivity].
          rewrite alog_app. apply text_eqb_neq in Hne. rewrite Hne. reflexivity. }
        rewrite Hsame. destruct Hs as [Hs|[Hs|Hs]]; [left; exact Hs|congruence|right; exact Hs].
    + apply arun_ret_ok in H1 as [-> [= -> ->]]. apply (IH _ _ _ _ _ _ Hg H r p key kh Hr Hk Hi).
      destruct Hs as [Hs|[Hs|Hs]]; [left; exact Hs|congruence|right; exact Hs].
Qed.

Lemma fold_quiet a date id rs : forall d pr s,
  (forall r p, In r rs -> dget d r = Some p -> exists key kh, p_keydata p = Some key /\ imports_as a key kh /\ settled (alog s (peerstate_chain a r)) id date key kh) ->
  forall n, alog (fst (arun (foldM (gossip_recipient a date id) rs (d, pr)) s)) n = alog s n.
Proof.
  induction rs as [|x rs IH]; intros d pr s H n; cbn [foldM]; [reflexivity|]. rewrite arun_bind. unfold gossip_recipient at 1.
  destruct (dget d x) as [p|] eqn:Ex.
  - rewrite arun_bind. pose proof (import_key_logs a p s) as Hl. destruct (arun (import_key a p) s) as [s1 [[h p']|e]] eqn:Ei; cbn [fst] in Hl.
    2:{ cbn [fst]. unfold alog. rewrite Hl. reflexivity. }
    destruct (H x p (or_introl eq_refl) Ex) as [key [kh [Hk [Hi Hs]]]]. destruct (import_key_kh a p s s1 h p' key kh Ei Hk Hi) as [-> ->].
    assert (Ha : forall k, alog s1 k = alog s k) by (intros k; unfold alog; rewrite Hl; reflexivity).
    rewrite arun_bind, update_from_msg_gossip_run, Hk, Ha. unfold settled in Hs. rewrite Hs. cbn [decided]. cbv beta iota. rewrite arun_ret. cbv beta iota.
    rewrite IH; [apply Ha|]. intros r q Hr. rewrite dget_dset. destruct (text_eqb_spec r x) as [->|].
    + intros [= <-]. exists key, kh. rewrite Ha. auto.
    + intros Hq. rewrite Ha. apply H; [right; exact Hr|exact Hq].
  - rewrite arun_ret. cbv beta iota. apply IH. intros r q Hr. apply H. right. exact Hr.
Qed.

Lemma decrypt_opens s s' a m dm infos : arun (decrypt_mime a m) s = (s', Ok (dm, infos)) -> exists content, opens a m content /\ dm = opened_as m content.
Proof.
  unfold decrypt_mime. intros H. apply arun_bind_ok in H as [s1 [b [H1 H]]]. apply arun_lift_ok in H1 as [-> Hb].
  apply arun_bind_ok in H as [s1 [[] [H1 H]]]. apply arun_assert_ok in H1 as [-> Hbt]. unfold opens, cipher_of.
  destruct (m_body m) as [| | |[|p0 [|p1 [|]]]]; try discriminate.
  apply arun_bind_ok in H as [s2 [enc [H1 H]]]. apply arun_bind_ok in H as [s3 [g [H2 H]]]. apply arun_bind_ok in H as [s4 [[dec i] [H3 H]]].
  apply arun_ret_ok in H as [_ [= -> ->]]. exists dec. split; [|reflexivity]. exists s2, g, enc, s3, i.
  split; [rewrite H2; reflexivity|]. split; [|rewrite H3; reflexivity].
  destruct (m_body p1); try discriminate; destruct (is_ascii _); try discriminate; apply arun_ret_ok in H1 as [_ ->]; reflexivity.
Qed.
Lemma msg_decide_ext l l' id d pref kd kh : msg_entries l = msg_entries l' -> msg_decide l id d pref kd kh = msg_decide l' id d pref kd kh.
Proof. intros H. unfold msg_decide, autocrypt_timestamp, latest_ac_entry, last_seen, latest_msg_entry, get_message_entry. rewrite H. reflexivity. Qed.

(** the sender after its mail *)
Lemma sender_settled a m p q kh x id dt : parse_one_ac_header_from_msg m [from_addr m] = Ok p ->
  (forall k, p_keydata p = Some k -> k <> [] -> kh <> None) ->
  msg_decide (alog (step (LMsg a x id dt (p_pref p) (p_keydata p) kh) q) (peer_chain a x)) id dt (p_pref p) (p_keydata p) kh = Ok None.
Proof.
  intros Hp Hkh. unfold step, step_prog. rewrite update_from_msg_run.
  assert (Hdec : exists o, msg_decide (alog q (peer_chain a x)) id dt (p_pref p) (p_keydata p) kh = Ok o).
  { pose proof (update_ok q (peer_chain a x) id dt p kh) as Hu. rewrite update_from_msg_run in Hu.
    destruct (msg_decide _ id dt _ _ _) as [o|e]; [eauto|]. cbn in Hu. exfalso.
    assert (Err e = @Ok unit tt); [|discriminate]. apply Hu.
    destruct (parse_carries m p Hp) as [Hf|[k [pr [ex [-> [Hv _]]]]]]; [auto|]. right. exists k, pr. auto. }
  destruct Hdec as [o Ho]. pose proof (decide_again _ _ _ _ _ _ _ Ho Hkh (clock (a_tick q))) as Hagain. rewrite Ho.
  destruct o as [e|]; cbn [decided fst]; [rewrite alog_app, text_eqb_refl|]; exact Hagain.
Qed.
Lemma import_run_logs a p s : a_logs (fst (import_run a p s)) = a_logs s.
Proof. unfold import_run. destruct (has_error p); [reflexivity|apply import_key_logs]. Qed.

Theorem c13_encrypted : forall s a m ign1 ign2 nd2 i d content, reachable s ->
  (forall c, opens a m c -> c = content) ->
  (forall key pref, carries m key pref -> exists kh, imports_as a key kh) ->
  (forall v x key pref, In v (hget_all (opened_as m content) (L "Autocrypt-Gossip")) -> key_header v x key pref ->
     norm x = x /\ exists kh, imports_as a key kh) ->
  answer s (AIncoming a m ign1 false) = Ok (OIncoming (Some i)) ->
  let s1 := after s (AIncoming a m ign1 false) in
  dated m d -> Z.min d (clock (a_tick s)) = Z.min d (clock (a_tick s1)) ->
  forall n, alog (after s1 (AIncoming a m ign2 nd2)) n = alog s1 n.
Proof.
  intros s a m ign1 ign2 nd2 i d content Hr Hone Himp Hgos H. cbv zeta. intros Hd Heff n.
  pose proof (reachable_WF s Hr) as Hw. apply answer_inc in H as [He H]; [|exact Hr].
  set (s1 := after s (AIncoming a m ign1 false)) in *.
  assert (Hr1 : reachable s1) by (apply reachable_step; exact Hr).
  assert (He1 : exists_acct s1 a) by (apply after_exists; [exact Hw|reflexivity|exact He]).
  rewrite (after_inc s1 a m ign2 nd2 Hr1 He1).
  pose proof (incoming_run a m ign1 false s) as R1. pose proof (incoming_run a m ign2 nd2 s1) as R2. cbv zeta in R1, R2.
  unfold dated in Hd. rewrite Hd in R1, R2. rewrite <- Heff in R2.
  destruct (ign1 && _); [rewrite R1 in H; discriminate|].
  destruct (ign2 && _); [rewrite R2; reflexivity|].
  destruct (parse_one_ac_header_from_msg m [from_addr m]) as [p|e] eqn:Hp; [|rewrite R1 in H; discriminate].
  destruct (import_run a p (step LTick s)) as [q1 [[kh p1]|e]] eqn:I1; [|rewrite R1 in H; discriminate].
  pose proof (import_run_logs a p (step LTick s1)) as L2.
  destruct (import_run a p (step LTick s1)) as [q2 [[kh2 p2]|e]] eqn:I2; cbn [fst] in L2; [|rewrite R2; unfold alog; cbn [fst]; rewrite L2; reflexivity].
  assert (A2 : forall k, alog q2 k = alog s1 k) by (intros k; unfold alog; rewrite L2; reflexivity).
  set (x := sender_of m) in *. set (id := msg_id_text m) in *. set (dt := Z.min d (clock (a_tick s))) in *.
  assert (Hkh : kh2 = kh /\ forall k, p_keydata p = Some k -> k <> [] -> kh <> None).
  { destruct (parse_carries m p Hp) as [[Hk Herr]|[key [pr [ex [-> [_ Hc]]]]]].
    - split; [|intros k Hk'; congruence]. unfold import_run in I1, I2. rewrite Herr in I1, I2. congruence.
    - destruct (Himp key pr Hc) as [h Hh].
      pose proof (import_run_kh a _ _ _ _ _ key h I1 eq_refl eq_refl Hh) as ->.
      pose proof (import_run_kh a _ _ _ _ _ key h I2 eq_refl eq_refl Hh) as ->.
      split; [reflexivity|]. discriminate. }
  destruct Hkh as [-> Hkh].
  pose proof (sender_settled a m p q1 kh x id dt Hp Hkh) as Hset.
  set (sT := step (LMsg a x id dt (p_pref p) (p_keydata p) kh) q1) in *.
  rewrite R1 in H. unfold rest_prog in H. apply arun_bind_ok in H as [t1 [b [H1 H]]]. apply arun_lift_ok in H1 as [-> Hb].
  apply arun_bind_ok in H as [t2 [gp [H1 H]]]. apply arun_ret_ok in H as [Ht _]. subst t2.
  (* what the gossip has settled *)
  assert (Hall : grows sT s1 /\ (b = true -> forall dd, get_gossip_headers_from_msg (opened_as m content) = Ok dd ->
     forall r p, In r (get_target_emailadr (opened_as m content)) -> dget dd r = Some p ->
       exists key kh, p_keydata p = Some key /\ imports_as a key kh /\ settled (alog s1 (peerstate_chain a r)) id dt key kh)).
  { destruct b.
    - apply arun_bind_ok in H1 as [t3 [[dm infos] [G1 H1]]]. pose proof (quiet_logs (decrypt_mime a m) sT (quiet_decrypt_mime a m)) as [Lq _]. rewrite G1 in Lq. cbn [fst] in Lq.
      destruct (decrypt_opens _ _ _ _ _ _ G1) as [c [Hc ->]]. apply Hone in Hc. subst c.
      apply arun_bind_ok in H1 as [t4 [gp' [G2 H1]]]. apply arun_bind_ok in H1 as [t5 [o [G3 H1]]].
      apply own_keyhandle_ok in G3 as [-> _]. apply arun_ret_ok in H1 as [Ht4 _]. subst t4.
      unfold process_gossip_headers in G2. apply arun_bind_ok in G2 as [t4 [dd [G3 G2]]]. apply arun_lift_ok in G3 as [-> Hdd].
      apply arun_bind_ok in G2 as [t4 [[d' pr'] [G2 G3]]]. apply arun_ret_ok in G3 as [Ht _]. subst t4.
      assert (Hgood : good a dd).
      { intros r q Hq. destruct (gossip_full _ _ _ _ Hdd Hq) as [v [key [pref [W1 [W2 [W3 _]]]]]]. destruct (Hgos v r key pref W1 W2) as [N1 [h N2]]. eauto. }
      split.
      + apply grows_trans with t3; [intros k; unfold alog; rewrite Lq; split; [reflexivity|exists []; reflexivity]|].
        apply gossip_fold_ok in G2 as [_ [G2 _]]; [exact G2|intros; discriminate].
      + intros _ dd' Hdd' r q Hr' Hq. rewrite Hdd in Hdd'. injection Hdd' as <-. destruct (Hgood r q Hq) as [_ [key [h [K1 K2]]]].
        exists key, h. split; [exact K1|]. split; [exact K2|]. eapply fold_settles; eauto.
    - apply arun_ret_ok in H1 as [Ht _]. rewrite Ht. split; [apply grows_refl|discriminate]. }
  destruct Hall as [Hgrow Hsettled].
  (* the second time *)
  rewrite R2. set (sU := step (LMsg a x id dt (p_pref p) (p_keydata p) kh) q2).
  assert (AU : forall k, alog sU k = alog s1 k).
  { intros k. unfold sU, step, step_prog. rewrite update_from_msg_run, A2.
    rewrite (msg_decide_ext (alog s1 (peer_chain a x)) (alog sT (peer_chain a x))) by apply Hgrow. rewrite Hset. cbn [decided fst]. apply A2. }
  transitivity (alog sU n); [|apply AU].
  unfold rest_prog. rewrite arun_bind. destruct nd2; [reflexivity|]. rewrite Hb. cbn [lift]. rewrite arun_ret. cbv beta iota.
  rewrite arun_bind. destruct b; [|reflexivity].
  assert (Hq : forall k, alog (fst (arun ('(dec, _) <- decrypt_mime a m ;; gp <- process_gossip_headers a dec dt id ;; own_keyhandle a ;;; Ret gp) sU)) k = alog sU k).
  { intros k. rewrite arun_bind. pose proof (quiet_logs (decrypt_mime a m) sU (quiet_decrypt_mime a m)) as [Lq _].
    destruct (arun (decrypt_mime a m) sU) as [u1 [[dm infos]|e]] eqn:Eu; cbn [fst] in Lq; [|unfold alog; cbn [fst]; rewrite Lq; reflexivity].
    destruct (decrypt_opens _ _ _ _ _ _ Eu) as [c [Hc ->]]. apply Hone in Hc. subst c.
    assert (Au : forall k, alog u1 k = alog sU k) by (intros k'; unfold alog; rewrite Lq; reflexivity).
    rewrite arun_bind. unfold process_gossip_headers at 1. rewrite arun_bind.
    destruct (get_gossip_headers_from_msg (opened_as m content)) as [dd|e] eqn:Edd; cbn [lift]; [|cbn [fst]; apply Au].
    rewrite arun_ret. cbv beta iota. rewrite arun_bind.
    pose proof (fold_quiet a dt id (get_target_emailadr (opened_as m content)) dd [] u1) as Q.
    assert (Q' : forall n, alog (fst (arun (foldM (gossip_recipient a dt id) (get_target_emailadr (opened_as m content)) (dd, [])) u1)) n = alog u1 n).
    { apply Q. intros r q Hr' Hq. destruct (Hsettled eq_refl dd eq_refl r q Hr' Hq) as [key [h [K1 [K2 K3]]]]. exists key, h. rewrite Au, AU. auto. }
    destruct (arun (foldM (gossip_recipient a dt id) (get_target_emailadr (opened_as m content)) (dd, [])) u1) as [u2 [[d' pr']|e]]; cbn [fst] in Q'; [|cbn [fst]; rewrite Q'; apply Au].
    rewrite arun_ret. cbv beta iota. rewrite arun_bind.
    pose proof (quiet_logs (own_keyhandle a) u2 (quiet_own_keyhandle a)) as [Lo _].
    assert (Ao : alog (fst (arun (own_keyhandle a) u2)) k = alog u2 k) by (unfold alog; rewrite Lo; reflexivity).
    destruct (arun (own_keyhandle a) u2) as [u3 [o|e]]; cbn [fst] in Ao |- *; [rewrite arun_ret; cbn [fst]|]; rewrite Ao, Q'; apply Au. }
  fold id. match goal with |- context [arun (bind (decrypt_mime a m) ?k) sU] => change (forall n, alog (fst (arun (bind (decrypt_mime a m) k) sU)) n = alog sU n) in Hq;
    destruct (arun (bind (decrypt_mime a m) k) sU) as [u [g|e]] end; cbn [fst] in Hq.
  - cbv beta iota. rewrite arun_ret. cbn [fst]. apply Hq.
  - cbn [fst]. apply Hq.
Qed.
End Twice.
