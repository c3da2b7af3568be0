(** Where the key handles of peers come from (C73). *)
From Verif Require Import Base PyStr Env Prog Chain Gpg Mime States Recommendation Account Cmdline Bot Fs Api Steps StepFacts Exec ApiScope
  Spec Obs PeerSpec OutSpec AcctSpec Incoming PeerFacts PeerProofs4 Quiet OutProofs AcctFacts AcctProofs AcctProofs2 Rings ImportProofs CliSpec CliProofs CliProofs2 CliProofs3
  GpgSpec GpgText ProgProofs KeySpec KeyText KeyProofs.

Section HandleProofs.
Context {E : Env}.

(** ** One import *)
Lemma import_said g k m h : may (import_keydata g k m) h ->
  exists r err, let argv := gstart g ++ [L "--skip-verify"; L "--import"] in
    utf8 (g_err (snd (gpg r argv (Some k) None))) = Some err /\ reported (fst (gpg r argv (Some k) None)) (gstart g) err h.
Proof.
  intros [s H]. destruct (arun (import_keydata g k m) s) as [s' r'] eqn:Er. cbn [snd] in H. subst r'. unfold import_keydata in Er.
  apply arun_bind_ok in Er as [s1 [[out err] [H1 H2]]]. apply outerr_exact in H1. cbv zeta in H1. destruct H1 as [Hs1 [Herr _]]. unfold before_ring in *.
  rewrite home_fixed in * by discriminate. rewrite full_start in *.
  apply arun_bind_ok in H2 as [s2 [kh [H2 H3]]]. apply find_keyhandle_exact in H2. subst s1. cbn [a_rings] in H2. rewrite ring_at_dset, text_eqb_refl in H2.
  assert (kh = h) as ->.
  { destruct m; [|apply arun_ret_ok in H3 as [_ ->]; reflexivity]. apply arun_bind_ok in H3 as [s3 [mini [_ H3]]].
    apply arun_bind_ok in H3 as [s4 [[o e] [_ H3]]]. apply arun_bind_ok in H3 as [s5 [[o2 e2] [_ H3]]]. apply arun_bind_ok in H3 as [s6 [kh2 [_ H3]]].
    apply arun_bind_ok in H3 as [s7 [u [H4 H3]]]. apply arun_assert_ok in H4 as [-> H4]. apply text_eqb_eq in H4. apply arun_ret_ok in H3 as [_ ->]. congruence. }
  eexists _, err. cbv zeta. split; [exact Herr|exact H2].
Qed.
Lemma export_said g h k : may (get_public_keydata g h false) k ->
  exists r, g_out (snd (gpg r (gstart g ++ [L "--export-options=export-minimal"; L "--export"; h]) None None)) = k.
Proof.
  intros [s H]. destruct (arun (get_public_keydata g h false) s) as [s' r'] eqn:Er. cbn [snd] in H. subst r'. unfold get_public_keydata in Er.
  apply arun_bind_ok in Er as [s1 [[out err] [H1 H2]]]. apply outerr_exact in H1. cbv zeta in H1. destruct H1 as [_ [_ Ho]]. rewrite full_start in Ho.
  apply arun_ret_ok in H2 as [_ ->]. injection Ho as Ho. eexists. exact Ho.
Qed.

(** ** Every recorded handle *)
Definition entry_said (a : text) (kd : bytes) (kh : text) : Prop := kh = [] \/ exists c, said c a (Some kd) (Some kh).
Definition handles_said (s : ast) : Prop := forall a x, isalnum a = true ->
  (forall e, In e (msg_entries (peer_log s a x)) -> entry_said a (me_keydata e) (me_kh e)) /\
  (forall e, In e (gossip_entries (peer_log s a x)) -> entry_said a (ge_keydata e) (ge_kh e)).
Lemma removes_dec a l : removes a l \/ ~ removes a l.
Proof.
  unfold removes. destruct l; try (right; intros [H|H]; discriminate).
  - destruct (text_eqb_spec acct a) as [->|Hn]; [left; right; reflexivity|right; intros [H|H]; [discriminate|congruence]].
  - left. left. reflexivity.
Qed.
Lemma handles_step s l : guard s l -> handles_said s -> handles_said (step l s).
Proof.
  intros Hg Hs a x Ha. destruct (Hs a x Ha) as [H1 H2]. split.
  - destruct (removes_dec a l) as [Hr|Hr].
    + assert (He : peer_log (step l s) a x = []).
      { unfold peer_log. destruct Hr as [->| ->]; [reflexivity|]. unfold step, step_prog, remove_account, alog, arun. cbn [perform run astep fst a_logs].
        rewrite dget_dremove_if, match_account_peer, text_eqb_refl by exact Ha. reflexivity. }
      rewrite He. intros e [].
    + destruct (step_msgs s l a x Hg Ha Hr) as [->|[id [d [pref [kd [kh [-> ->]]]]]]]; [exact H1|].
      destruct (decide_msgs_cases (peer_log s a x) id d pref kd kh) as [|p k D1 D2 D3 D4 D5|D1 D2 D3]; [exact H1| |].
      * intros e [<-|He]; [|apply H1, He]. cbn [me_keydata me_kh]. destruct Hg as [_ [[c [_ Hsaid]] _]]. subst kd. destruct kh as [h|]; [|left; reflexivity].
        right. exists c. exact Hsaid.
      * intros e [<-|He]; [left; reflexivity|apply H1, He].
  - destruct (step_gossips s l a x Hg Ha) as [->|[[-> _]|[id [d [k [h [-> ->]]]]]]]; [exact H2|intros e []|].
    intros e [<-|He]; [|apply H2, He]. cbn [ge_keydata ge_kh]. destruct Hg as [_ [[c [_ Hsaid]] _]]. right. exists c. exact Hsaid.
Qed.
Lemma reachable_handles s : reachable s -> handles_said s.
Proof.
  intros Hr. assert (WF s /\ handles_said s); [|tauto]. revert s Hr. apply reachable_ind.
  - split; [apply WF_init|]. intros a x _. split; intros e [].
  - intros s c n _ [Hw Hd]. destruct (killed_path c n s Hw) as [ls [Hp _]]. split; [eapply path_WF; eauto|]. revert Hd. apply path_inv with (ls := ls); [|exact Hp].
    intros s0 l Hg _. apply handles_step; exact Hg.
Qed.
Lemma latest_ac_in l e : latest_ac_entry l = Some e -> In e (msg_entries l).
Proof. unfold latest_ac_entry. intros H. apply find_some in H as [H _]. exact H. Qed.
Lemma latest_gossip_in l e : latest_gossip_entry l = Some e -> In e (gossip_entries l).
Proof. unfold latest_gossip_entry. destruct (gossip_entries l); [discriminate|]. intros [= ->]. left. reflexivity. Qed.
Lemma public_said s a x : handles_said s -> isalnum a = true -> public_keyhandle (peer_log s a x) <> [] ->
  exists c, said c a (Some (public_keydata (peer_log s a x))) (Some (public_keyhandle (peer_log s a x))).
Proof.
  intros Hs Ha Hn. destruct (Hs a x Ha) as [H1 H2]. unfold public_keyhandle, public_keydata in *. unfold entry_for_encryption in *.
  destruct (has_direct_key (peer_log s a x)).
  - destruct (latest_ac_entry (peer_log s a x)) as [e|] eqn:He; [|destruct (Hn eq_refl)]. cbn [option_map] in *.
    destruct (H1 e (latest_ac_in _ _ He)) as [H|H]; [contradiction|exact H].
  - destruct (latest_gossip_entry (peer_log s a x)) as [e|] eqn:He; [|destruct (Hn eq_refl)]. cbn [option_map] in *.
    destruct (H2 e (latest_gossip_in _ _ He)) as [H|H]; [contradiction|exact H].
Qed.
Theorem c73_peers : forall s a x v, reachable s -> peer_of s a x = Some v -> pv_keyhandle v <> [] ->
  exists bin p mode r data err, located bin p /\
    let start := start_of p mode a in
    let run := gpg r (start ++ [L "--skip-verify"; L "--import"]) (Some data) None in
    utf8 (g_err (snd run)) = Some err /\ reported (fst run) start err (pv_keyhandle v) /\
    (data = pv_keydata v \/
     exists r', g_out (snd (gpg r' (start ++ [L "--export-options=export-minimal"; L "--export"; pv_keyhandle v]) None None)) = pv_keydata v).
Proof.
  intros s a x v Hr Hp Hn. pose proof (WF_reachable s Hr) as Hw. destruct (peer_of_some s a x v Hw Hp) as [He ->]. cbn [view_of pv_keyhandle pv_keydata] in *.
  assert (Ha : isalnum a = true) by (apply (exists_isalnum s); assumption).
  destruct (public_said s a (norm x) (reachable_handles s Hr) Ha Hn) as [c [g [k [Hg [[= <-] Hs]]]]].
  pose proof Hg as [Hh Hb]. set (b := cf_bin c) in *.
  pose proof (made_start g c a Hh) as Hst.
  assert (located b (gp_path g)) as Hl by (apply located_found; exact Hb).
  destruct Hs as [Hs|[k0 [Hs Hx]]].
  - apply import_said in Hs as [r [err [H1 H2]]]. rewrite Hst in H1, H2. exists b, (gp_path g), (cf_mode c), r, (public_keydata (peer_log s a (norm x))), err.
    cbv zeta. auto.
  - apply import_said in Hs as [r [err [H1 H2]]]. apply export_said in Hx as [r' Hx]. rewrite Hst in H1, H2, Hx. exists b, (gp_path g), (cf_mode c), r, k0, err.
    cbv zeta. split; [exact Hl|]. split; [exact H1|]. split; [exact H2|]. right. exists r'. exact Hx.
Qed.
End HandleProofs.
