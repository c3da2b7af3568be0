(** Proofs for C98: calls whose process is killed. *)
From Verif Require Import Base PyStr Base64 Env Prog Chain Gpg Mime States Recommendation Account Cmdline Bot Fs Api Steps StepFacts Exec ApiScope
  Spec Obs PeerSpec Incoming PeerFacts PeerProofs PeerProofs2 PeerProofs3 PeerProofs4 AcctSpec AcctFacts AcctProofs Quiet KillSpec.

Section KillProofs.
Context {E : Env}.
Open Scope Z_scope.

(** ** Logs only grow *)
Lemma only_adds_refl s : only_adds s s. Proof. intros n. exists []. reflexivity. Qed.
Lemma only_adds_trans s1 s2 s3 : only_adds s1 s2 -> only_adds s2 s3 -> only_adds s1 s3.
Proof. intros H1 H2 n. destruct (H1 n) as [x Hx], (H2 n) as [y Hy]. exists (y ++ x). rewrite Hy, Hx, app_assoc. reflexivity. Qed.
Lemma path_adds s ls s' : path s ls s' -> (forall l, In l ls -> forall a, ~ removes a l) -> only_adds s s'.
Proof.
  induction 1 as [|s l ls s' Hg Hp IH]; intros H; [apply only_adds_refl|].
  eapply only_adds_trans; [|apply IH; intros l0 Hl0; apply H; simpl; auto].
  intros n. destruct (step_log s l n) as [H1|[[H1 _]|[e [H1 _]]]].
  - exists []. exact H1.
  - exfalso. destruct H1 as [->|[a ->]]; [apply (H LRm (or_introl eq_refl) []); left; reflexivity|].
    apply (H (LRemove a) (or_introl eq_refl) a). right; reflexivity.
  - exists [Block (clock (a_tick s)) e]. exact H1.
Qed.
Lemma c98_adds s c k : reachable s -> keeps_all c -> only_adds s (killed s c k) /\ only_adds (killed s c k) (after s c).
Proof.
  intros Hr Hk. pose proof (reachable_WF s Hr) as Hw. split.
  - destruct (killed_path c k s Hw) as [ls [Hp HF]]. rewrite Forall_forall in HF. eapply path_adds; [exact Hp|].
    intros l Hl a. eapply scope_removes; eauto.
  - destruct (killed_rest c k s Hw) as [ls [Hp HF]]. rewrite Forall_forall in HF. eapply path_adds; [exact Hp|].
    intros l Hl a. eapply scope_removes; eauto.
Qed.

(** ** Own key and timestamps *)
Lemma c98_own s c k a cfg kh : reachable s -> own_of s a = Some (cfg, kh) -> deletes a c = false ->
  exists cfg', own_of (killed s c k) a = Some (cfg', kh) /\ cf_mode cfg' = cf_mode cfg /\ cf_name cfg' = cf_name cfg.
Proof.
  intros Hr Ho Hd. pose proof (WF_reachable s Hr) as Hw. apply own_of_some in Ho; auto. destruct Ho as [Hc [k0 [Hk <-]]].
  destruct (killed_path c k s Hw) as [ls [Hp HF]]. rewrite Forall_forall in HF.
  destruct (path_own s ls (killed s c k) a cfg k0 Hp Hw) as [Hk' [cfg' [Hc' [Hm [Hn _]]]]]; auto.
  { intros l Hl. eapply scope_removes; eauto. }
  exists cfg'. split; [apply own_of_some; [eapply path_WF; eauto|]; eauto|]. auto.
Qed.
Lemma c98_timestamp s c k a x v : reachable s -> peer_of s a x = Some v -> deletes a c = false ->
  exists v' v'', peer_of (killed s c k) a x = Some v' /\ peer_of (after s c) a x = Some v'' /\
    pv_ac_timestamp v <= pv_ac_timestamp v' /\ pv_ac_timestamp v' <= pv_ac_timestamp v''.
Proof.
  intros Hr Hv Hd. pose proof (reachable_WF s Hr) as Hw.
  destruct (exists_acct_dec s a) as [He|He]; [|rewrite peer_of_none in Hv by auto; discriminate].
  pose proof (exists_isalnum s a Hw He) as Ha.
  destruct (killed_path c k s Hw) as [l1 [Hp1 HF1]]. destruct (killed_rest c k s Hw) as [l2 [Hp2 HF2]]. rewrite Forall_forall in HF1, HF2.
  pose proof (path_WF _ _ _ Hp1 Hw) as Hw1. pose proof (path_WF _ _ _ Hp2 Hw1) as Hw2.
  assert (H1 : forall l, In l l1 -> ~ removes a l) by (intros l Hl; eapply scope_removes; eauto).
  assert (H2 : forall l, In l l2 -> ~ removes a l) by (intros l Hl; eapply scope_removes; eauto).
  pose proof (path_exists _ _ _ a Hp1 Hw H1 He) as He1. pose proof (path_exists _ _ _ a Hp2 Hw1 H2 He1) as He2.
  rewrite peer_of_spec in Hv by auto. injection Hv as <-. do 2 eexists.
  split; [apply peer_of_spec; auto|]. split; [apply peer_of_spec; auto|].
  split; [exact (path_ts a (norm x) _ _ _ Hp1 Ha H1)|exact (path_ts a (norm x) _ _ _ Hp2 Ha H2)].
Qed.
Lemma c98_others s c k n b : reachable s -> names c = Some n -> (forall m, c <> ACliDel m) -> b <> n -> same_account s (killed s c k) b.
Proof.
  intros Hr Hn Hcd Hb. pose proof (reachable_WF s Hr) as Hw. destruct (killed_path c k s Hw) as [ls [Hp HF]]. eapply path_same_account; eauto.
  intros l Hl. rewrite Forall_forall in HF. eapply scope_names; eauto.
Qed.

(** ** Programs that write once *)
Lemma quiet_stop {A} (p : prog cop A) : quiet p -> forall n s, a_logs (stop (@astep _) n p s) = a_logs s.
Proof.
  induction 1 as [a|e|X o k Ho Hk IH]; intros n s; [rewrite stop_ret; reflexivity|rewrite stop_raise; reflexivity|].
  destruct n as [|n]; [reflexivity|]. cbn [stop].
  pose proof (quiet_logs (perform o) s (allowed_perform _ _ Ho)) as [H1 _]. unfold arun in H1. cbn [perform run] in H1.
  destruct (astep o s) as [s' x]. cbn [fst] in H1. rewrite IH. exact H1.
Qed.
Definition once {A} (p : prog cop A) (s : ast) : Prop :=
  forall n, a_logs (stop (@astep _) n p s) = a_logs s \/ a_logs (stop (@astep _) n p s) = a_logs (fst (arun p s)).
Lemma once_quiet {A} (p : prog cop A) s : quiet p -> once p s.
Proof. intros H n. left. apply quiet_stop, H. Qed.
Lemma once_atomic {A} (p : prog cop A) s : atomic p s -> once p s.
Proof. intros H n. destruct (H n) as [->| ->]; auto. Qed.
Lemma once_pre {A B} (p : prog cop A) (f : A -> prog cop B) s : quiet p -> (forall a s, once (f a) s) -> once (bind p f) s.
Proof.
  intros Hp Hf n. destruct (stop_bind (@astep _) p f n s) as [->|[a [m [Ha ->]]]]; [left; apply quiet_stop, Hp|].
  fold (arun p s) in *. destruct (quiet_logs p s Hp) as [Hl _]. rewrite arun_bind.
  destruct (arun p s) as [s1 r]. cbn [fst snd] in *. subst r. rewrite <- Hl. apply Hf.
Qed.
Lemma once_post {A B} (p : prog cop A) (f : A -> prog cop B) s : once p s -> (forall a, quiet (f a)) -> once (bind p f) s.
Proof.
  intros Hp Hf n.
  assert (Hend : a_logs (fst (arun (bind p f) s)) = a_logs (fst (arun p s))).
  { rewrite arun_bind. destruct (arun p s) as [s1 [a|e]]; [|reflexivity]. cbn [fst]. apply quiet_logs, Hf. }
  rewrite Hend. destruct (stop_bind (@astep _) p f n s) as [->|[a [m [Ha ->]]]]; [apply Hp|].
  right. rewrite quiet_stop by apply Hf. reflexivity.
Qed.

Lemma stop_get_account a s n : WF s -> exists_acct s a -> stop (@astep _) n (get_account a true) s = s.
Proof.
  intros Hw He. pose proof (exists_version s a Hw He) as Hv.
  assert (Hi : forall m, stop (@astep _) m ensure_init s = s).
  { intros m. destruct (atomic_ensure_init s m) as [H|H]; [exact H|]. rewrite H. exact (inited_id s Hv). }
  unfold get_account. match goal with |- stop _ n (bind _ ?f) s = _ => destruct (stop_bind (@astep _) ensure_init f n s) as [->|[u [m [_ ->]]]] end; [apply Hi|].
  change (fst (run (@astep _) ensure_init s)) with (inited s). rewrite inited_id by exact Hv.
  destruct (stop_bind (@astep _) (assert_ (isalnum a)) (fun _ => ex <- account_exists a ;; if ex then Ret a else Raise AccountNotFound) m s) as [->|[u' [m' [_ ->]]]];
    [destruct (isalnum a); [apply stop_ret|apply stop_raise]|].
  replace (fst (run (@astep _) (assert_ (isalnum a)) s)) with s by (destruct (isalnum a); reflexivity).
  destruct (stop_bind (@astep _) (account_exists a) (fun ex : bool => if ex then Ret a else Raise AccountNotFound) m' s) as [->|[ex [m2 [_ ->]]]]; [apply stop_exists|].
  replace (fst (run (@astep _) (account_exists a) s)) with s by reflexivity.
  destruct ex; [apply stop_ret|apply stop_raise].
Qed.
Lemma once_with_account {A} a (f : text -> prog cop A) s : WF s -> exists_acct s a -> once (f a) s -> once (with_account a f) s.
Proof.
  intros Hw He Hf n. rewrite (arun_with_account s a f Hw He). change (with_account a f) with (bind (get_account a true) f).
  destruct (stop_bind (@astep _) (get_account a true) f n s) as [->|[b [m [Hb ->]]]]; [left; rewrite stop_get_account by auto; reflexivity|].
  pose proof (arun_with_account s a (fun b => Ret b) Hw He) as Hg. unfold with_account in Hg. rewrite arun_bind in Hg.
  fold (arun (get_account a true) s) in *. destruct (arun (get_account a true) s) as [s1 r]. cbn [fst snd] in *. subst r.
  injection Hg as -> ->. apply Hf.
Qed.
Lemma once_incoming a m ign nd s : nd = true \/ is_encrypted m <> Ok true -> once (process_incoming a m ign nd) s.
Proof.
  intros Hno. unfold process_incoming. cbv zeta.
  apply once_pre; [apply allowed_lift|]. intros d s0. apply once_pre; [unfold effective_date; quiets|]. intros date s1.
  apply once_pre; [quiets|]. intros l s2. destruct (ign && has_message l (msg_id_text m)); [apply once_quiet; quiets|].
  apply once_post.
  - unfold process_autocrypt_header. apply once_pre; [apply allowed_lift|]. intros p s3.
    apply once_pre; [destruct (has_error p); [quiets|apply quiet_import_key]|]. intros [kh p'] s4.
    apply once_post; [|intros; quiets]. apply once_atomic, atomic_update_msg.
  - intros p. destruct nd.
    + cbn [bind]. quiets.
    + destruct Hno as [H|H]; [discriminate|]. destruct (is_encrypted m) as [[]|e]; [congruence| |]; cbn [lift bind]; quiets.
Qed.
Lemma once_exec_incoming a m ign nd s : WF s -> exists_acct s a -> nd = true \/ is_encrypted m <> Ok true -> once (exec (AIncoming a m ign nd)) s.
Proof.
  intros Hw He Hno. cbn [exec]. apply once_with_account; auto. apply once_post; [apply once_incoming; auto|]. intros; quiets.
Qed.
Lemma c98_plain s a m ign nd k : reachable s -> has_account s a -> nd = true \/ is_encrypted m <> Ok true ->
  let c := AIncoming a m ign nd in
  (forall n, alog (killed s c k) n = alog s n) \/ (forall n, alog (killed s c k) n = alog (after s c) n).
Proof.
  intros Hr Ha Hno. cbv zeta. pose proof (reachable_WF s Hr) as Hw. apply has_account_exists in Ha; auto.
  destruct (once_exec_incoming a m ign nd s Hw Ha Hno k) as [H|H]; [left|right]; intros n; unfold alog, killed, after; rewrite H; reflexivity.
Qed.

(** ** The call again *)
Lemma eff_once s s1 a m ign nd d :
  WF s -> exists_acct s a -> WF s1 -> exists_acct s1 a ->
  (nd = true \/ is_encrypted m <> Ok true) ->
  (forall key pref, carries m key pref -> exists kh, imports_as a key kh) ->
  (exists i, answer s (AIncoming a m ign nd) = Ok (OIncoming (Some i))) ->
  (exists r, answer s1 (AIncoming a m ign nd) = Ok (OIncoming r)) ->
  dated m d -> Z.min d (clock (a_tick s)) = Z.min d (clock (a_tick s1)) ->
  (forall n, alog s1 n = alog s n) ->
  same_entries (after s (AIncoming a m ign nd)) (after s1 (AIncoming a m ign nd)).
Proof.
  intros Hw He Hw1 He1 Hno Himp [i1 Ha1] [i2 Ha2] Hd Heff Hlogs n.
  destruct (answer_incoming s a m ign nd Hw He) as [Haft1 HA1]. rewrite HA1 in Ha1. clear HA1.
  destruct (answer_incoming s1 a m ign nd Hw1 He1) as [Haft2 HA2]. rewrite HA2 in Ha2. clear HA2.
  rewrite Haft1, Haft2.
  destruct (incoming_effect a m ign nd s Hw He) as [e Hl Hr1|Hl Hr1 Hi Hm|d1 p q1 kh p' ls Hd1 Hp Hi Hl1 Hn Hpath HF Hr1];
    [rewrite Hr1 in Ha1; discriminate|rewrite Hr1 in Ha1; discriminate|].
  destruct (incoming_effect a m ign nd s1 Hw1 He1) as [e Hl Hr2|Hl _ Hi2 Hm2|d2 p2 q2 kh2 p2' ls2 Hd2 Hp2 Hi2 Hl2 _ Hpath2 HF2 _];
    [rewrite Hr2 in Ha2; discriminate|exfalso; unfold peer_log in *; rewrite Hlogs, (Hn Hi2) in Hm2; discriminate|].
  unfold dated in *. rewrite Hd in Hd1, Hd2. injection Hd1 as <-. injection Hd2 as <-. rewrite Hp in Hp2. injection Hp2 as <-.
  pose proof (gossip_path_plain a m nd _ _ _ _ Hno Hpath HF) as Hs1.
  pose proof (gossip_path_plain a m nd _ _ _ _ Hno Hpath2 HF2) as Hs2.
  assert (Hkh : kh2 = kh).
  { destruct (parse_carries m p Hp) as [[Hk Herr]|[key [pr [ex [-> [_ Hc]]]]]].
    - unfold import_run in Hi, Hi2. rewrite Herr in Hi, Hi2. congruence.
    - destruct (Himp key pr Hc) as [h Hh].
      rewrite (import_run_kh a _ _ _ _ _ key h Hi eq_refl eq_refl Hh).
      exact (import_run_kh a _ _ _ _ _ key h Hi2 eq_refl eq_refl Hh). }
  subst kh2. rewrite <- Heff in Hs2. unfold entries, alog at 1. rewrite Hs2. unfold alog at 1. rewrite Hs1.
  set (x := sender_of m) in *. set (id := msg_id_text m) in *. set (dt := Z.min d (clock (a_tick s))) in *.
  change (map bl_entry (alog (step (LMsg a x id dt (p_pref p) (p_keydata p) kh) q2) n) =
          map bl_entry (alog (step (LMsg a x id dt (p_pref p) (p_keydata p) kh) q1) n)).
  assert (Hq1 : forall k, alog q1 k = alog s k) by (intros k; unfold alog; rewrite Hl1; reflexivity).
  assert (Hq2 : forall k, alog q2 k = alog s k) by (intros k; rewrite <- Hlogs; unfold alog; rewrite Hl2; reflexivity).
  unfold step, step_prog. rewrite !update_from_msg_run, !Hq1, !Hq2.
  destruct (msg_decide _ id dt _ _ _) as [[e|]|]; cbn [decided fst]; rewrite ?alog_app, ?Hq1, ?Hq2; [|reflexivity|reflexivity].
  destruct (text_eqb n (peer_chain a x)); reflexivity.
Qed.

(** as C13, from any state with the same logs *)
Lemma again s s1 a m ign1 ign2 nd1 nd2 i d : WF s -> WF s1 -> exists_acct s a -> exists_acct s1 a ->
  (nd1 = true \/ is_encrypted m <> Ok true) -> (nd2 = true \/ is_encrypted m <> Ok true) ->
  (forall key pref, carries m key pref -> exists kh, imports_as a key kh) ->
  answer s (AIncoming a m ign1 nd1) = Ok (OIncoming (Some i)) ->
  (forall n, alog s1 n = alog (after s (AIncoming a m ign1 nd1)) n) ->
  dated m d -> Z.min d (clock (a_tick s)) = Z.min d (clock (a_tick s1)) ->
  forall n, alog (after s1 (AIncoming a m ign2 nd2)) n = alog s1 n.
Proof.
  intros Hw Hw1 He He1 Hno1 Hno2 Himp Hans Hsame Hd Heff n.
  destruct (answer_incoming s a m ign1 nd1 Hw He) as [Haft HA]. rewrite HA in Hans. clear HA.
  destruct (answer_incoming s1 a m ign2 nd2 Hw1 He1) as [-> _].
  destruct (incoming_effect a m ign1 nd1 s Hw He) as [e Hl Hr1|Hl Hr1 Hi Hm|d1 p q1 kh p' ls Hd1 Hp Hi Hl1 Hn Hpath HF Hr1];
    [rewrite Hr1 in Hans; discriminate|rewrite Hr1 in Hans; discriminate|].
  unfold dated in *. rewrite Hd in Hd1. injection Hd1 as <-.
  rewrite <- Haft in Hpath. pose proof (gossip_path_plain a m nd1 _ _ _ _ Hno1 Hpath HF) as Hs1.
  destruct (incoming_effect a m ign2 nd2 s1 Hw1 He1) as [e Hl _|Hl _ _ _|d2 p2 q2 kh2 p2' ls2 Hd2 Hp2 Hi2 Hl2 _ Hpath2 HF2 _].
  - unfold alog. rewrite Hl. reflexivity.
  - unfold alog. rewrite Hl. reflexivity.
  - unfold dated in Hd2. rewrite Hd in Hd2. injection Hd2 as <-. rewrite Hp in Hp2. injection Hp2 as <-.
    pose proof (gossip_path_plain a m nd2 _ _ _ _ Hno2 Hpath2 HF2) as Hs2. unfold alog at 1. rewrite Hs2.
    rewrite <- Heff. set (x := sender_of m) in *. set (id := msg_id_text m) in *. set (dt := Z.min d (clock (a_tick s))) in *.
    change (alog (step (LMsg a x id dt (p_pref p) (p_keydata p) kh2) q2) n = alog s1 n).
    assert (Hq2 : forall k, alog q2 k = alog s1 k) by (intros k; unfold alog; rewrite Hl2; reflexivity).
    assert (Hkh : kh2 = kh /\ forall k, p_keydata p = Some k -> k <> [] -> kh <> None).
    { destruct (parse_carries m p Hp) as [[Hk Herr]|[key [pr [ex [-> [_ Hc]]]]]].
      - split; [|intros k Hk'; congruence].
        unfold import_run in Hi, Hi2. rewrite Herr in Hi, Hi2. congruence.
      - destruct (Himp key pr Hc) as [h Hh].
        pose proof (import_run_kh a _ _ _ _ _ key h Hi eq_refl eq_refl Hh) as ->.
        pose proof (import_run_kh a _ _ _ _ _ key h Hi2 eq_refl eq_refl Hh) as ->.
        split; [reflexivity|]. discriminate. }
    destruct Hkh as [-> Hkh].
    destruct (text_eqb_spec n (peer_chain a x)) as [->|Hn2].
    2:{ rewrite step_frame by (simpl; exact Hn2). apply Hq2. }
    unfold step, step_prog. rewrite update_from_msg_run.
    rewrite Hq2.
    assert (Hlog : alog s1 (peer_chain a x) =
      match msg_decide (alog s (peer_chain a x)) id dt (p_pref p) (p_keydata p) kh with
      | Ok (Some e) => Block (clock (a_tick q1)) e :: alog s (peer_chain a x)
      | _ => alog s (peer_chain a x) end).
    { rewrite Hsame. unfold alog at 1. rewrite Hs1. change (alog (step (LMsg a x id dt (p_pref p) (p_keydata p) kh) q1) (peer_chain a x) = match msg_decide (alog s (peer_chain a x)) id dt (p_pref p) (p_keydata p) kh with
      | Ok (Some e) => Block (clock (a_tick q1)) e :: alog s (peer_chain a x)
      | _ => alog s (peer_chain a x) end).
      assert (Hq1 : alog q1 (peer_chain a x) = alog s (peer_chain a x)) by (unfold alog; rewrite Hl1; reflexivity).
      unfold step, step_prog. rewrite update_from_msg_run, Hq1.
      destruct (msg_decide _ id dt _ _ _) as [[e|]|]; cbn [decided fst]; try exact Hq1.
      rewrite alog_app, text_eqb_refl, Hq1. reflexivity. }
    assert (Hdec : exists o, msg_decide (alog s (peer_chain a x)) id dt (p_pref p) (p_keydata p) kh = Ok o).
    { pose proof (update_ok s (peer_chain a x) id dt p kh) as Hu. rewrite update_from_msg_run in Hu.
      destruct (msg_decide _ id dt _ _ _) as [o|e]; [eauto|]. cbn in Hu. exfalso.
      assert (Err e = @Ok unit tt); [|discriminate]. apply Hu.
      destruct (parse_carries m p Hp) as [Hf|[k [pr [ex [-> [Hv _]]]]]]; [auto|]. right. exists k, pr. auto. }
    destruct Hdec as [o Ho]. pose proof (decide_again _ _ _ _ _ _ _ Ho Hkh (clock (a_tick q1))) as Hagain.
    assert (Hn1 : msg_decide (alog s1 (peer_chain a x)) id dt (p_pref p) (p_keydata p) kh = Ok None).
    { rewrite Hlog, Ho. destruct o; exact Hagain. }
    rewrite Hn1. cbn [decided fst]. apply Hq2.
Qed.

Lemma c98_repeat s a m ign nd k i r d : reachable s ->
  (nd = true \/ is_encrypted m <> Ok true) ->
  (forall key pref, carries m key pref -> exists kh, imports_as a key kh) ->
  let c := AIncoming a m ign nd in let s1 := killed s c k in
  answer s c = Ok (OIncoming (Some i)) -> answer s1 c = Ok (OIncoming r) ->
  dated m d -> Z.min d (clock (a_tick s)) = Z.min d (clock (a_tick s1)) ->
  same_entries (after s c) (after s1 c).
Proof.
  intros Hr Hno Himp. cbv zeta. intros Hans1 Hans2 Hd Heff.
  pose proof (reachable_WF s Hr) as Hw.
  destruct (exists_acct_dec s a) as [He|He].
  2:{ exfalso. unfold answer in Hans1. cbn [exec] in Hans1. rewrite arun_with_account_none in Hans1 by exact He. discriminate. }
  set (c := AIncoming a m ign nd) in *. set (s1 := killed s c k) in *.
  destruct (killed_path c k s Hw) as [ls [Hp HF]]. rewrite Forall_forall in HF. fold s1 in Hp.
  pose proof (path_WF _ _ _ Hp Hw) as Hw1.
  assert (He1 : exists_acct s1 a).
  { eapply path_exists; eauto. intros l Hl. eapply scope_removes; [apply HF, Hl|reflexivity]. }
  destruct (c98_plain s a m ign nd k Hr) as [H|H]; [apply has_account_exists; auto|exact Hno| |]; fold c in H; fold s1 in H.
  - apply (eff_once s s1 a m ign nd d); auto; [exists i; exact Hans1|exists r; exact Hans2].
  - intros n. unfold entries. f_equal. rewrite <- H. apply (again s s1 a m ign ign nd nd i d); auto.
Qed.

(** ** A new account is not there, or is complete *)
Definition nokey {A} n (p : prog cop A) (s : ast) : Prop := forall k, keygen_of (stop (@astep _) k p s) n = None.
Definition late {A} n (p : prog cop A) (s : ast) : Prop :=
  forall k, keygen_of (stop (@astep _) k p s) n = None \/ a_logs (stop (@astep _) k p s) = a_logs (fst (arun p s)).
Lemma logs_keygen s s' n : a_logs s' = a_logs s -> keygen_of s' n = keygen_of s n.
Proof. intros H. unfold keygen_of, alog. rewrite H. reflexivity. Qed.
Lemma nokey_quiet {A} n (p : prog cop A) s : quiet p -> keygen_of s n = None -> nokey n p s.
Proof. intros Hp Hk k. rewrite (logs_keygen s) by (apply quiet_stop, Hp). exact Hk. Qed.
Lemma nokey_end {A} n (p : prog cop A) s : nokey n p s -> keygen_of (fst (arun p s)) n = None.
Proof. intros H. destruct (stop_whole (@astep _) p s) as [k Hk]. unfold arun. rewrite <- Hk. apply H. Qed.
Lemma nokey_late {A} n (p : prog cop A) s : nokey n p s -> late n p s. Proof. intros H k. left. apply H. Qed.
Lemma once_late {A} n (p : prog cop A) s : once p s -> keygen_of s n = None -> late n p s.
Proof. intros H Hk k. destruct (H k) as [H1|H1]; [left; rewrite (logs_keygen s) by exact H1; exact Hk|auto]. Qed.
Lemma late_pre {A B} n (p : prog cop A) (f : A -> prog cop B) s : nokey n p s ->
  (forall a s', keygen_of s' n = None -> late n (f a) s') -> late n (bind p f) s.
Proof.
  intros Hp Hf k. pose proof (nokey_end n p s Hp) as He.
  destruct (stop_bind (@astep _) p f k s) as [->|[a [m [Ha ->]]]]; [left; apply Hp|].
  fold (arun p s) in *. rewrite arun_bind. destruct (arun p s) as [s1 r]. cbn [fst snd] in *. subst r. apply Hf, He.
Qed.
Lemma late_post {A B} n (p : prog cop A) (f : A -> prog cop B) s : late n p s -> (forall a, quiet (f a)) -> late n (bind p f) s.
Proof.
  intros Hp Hf k.
  assert (Hend : a_logs (fst (arun (bind p f) s)) = a_logs (fst (arun p s))).
  { rewrite arun_bind. destruct (arun p s) as [s1 [a|e]]; [|reflexivity]. cbn [fst]. apply quiet_logs, Hf. }
  rewrite Hend. destruct (stop_bind (@astep _) p f k s) as [->|[a [m [Ha ->]]]]; [apply Hp|].
  right. rewrite quiet_stop by apply Hf. reflexivity.
Qed.
Lemma nokey_new_config n c s : keygen_of s n = None -> nokey n (new_config n c) s.
Proof.
  intros Hk k. unfold new_config. destruct (mk_cfg_entry c) as [en|e] eqn:Em; cbn [lift bind]; [|rewrite stop_raise; exact Hk].
  assert (He : en = ECfg c) by (unfold mk_cfg_entry in Em; destruct (_ && _); [|discriminate]; congruence). subst en.
  destruct (atomic_perform (CAppend (own_chain n) (ECfg c)) s k) as [->| ->]; [exact Hk|].
  rewrite arun_append. cbn [fst]. rewrite keygen_app_cfg. exact Hk.
Qed.
Lemma late_create n regex kh bin mode s : keygen_of s n = None -> late n (create n regex kh bin mode) s.
Proof.
  intros Hk. unfold create. apply late_pre; [apply nokey_quiet; [quiets|exact Hk]|]. intros [] s1 H1.
  apply late_pre; [apply nokey_new_config, H1|]. intros [] s2 H2.
  apply late_pre.
  { apply nokey_quiet; [|exact H2]. destruct kh as [h|].
    - apply allowed_bind; [apply quiet_get_bingpg|]. intros g. apply allowed_bind; [apply quiet_get_secret_keyhandle|]. intros [h'|]; quiets.
    - apply allowed_bind; [quiets|]. intros id. apply allowed_bind; [apply quiet_get_bingpg|]. intros g. apply quiet_gen_secret_key. }
  intros kh' s3 H3. apply late_pre; [apply nokey_quiet; [apply quiet_get_bingpg|exact H3]|]. intros g s4 H4.
  apply late_pre; [apply nokey_quiet; [apply quiet_get_secret_keydata|exact H4]|]. intros kd s5 H5.
  apply once_late; [|exact H5]. apply once_atomic, atomic_perform.
Qed.
Lemma nokey_get_account n s : keygen_of s n = None -> nokey n (get_account n false) s.
Proof.
  intros Hk k. unfold get_account.
  assert (Hi : keygen_of (inited s) n = None) by (unfold keygen_of; rewrite inited_own; exact Hk).
  destruct (stop_bind (@astep _) ensure_init (fun _ => assert_ (isalnum n) ;;; Ret n) k s) as [H|[u [m [_ H]]]].
  - replace (stop (@astep _) k (ensure_init ;;; assert_ (isalnum n) ;;; Ret n) s) with (stop (@astep _) k ensure_init s) by (symmetry; exact H).
    destruct (atomic_ensure_init s k) as [->| ->]; [exact Hk|exact Hi].
  - replace (stop (@astep _) k (ensure_init ;;; assert_ (isalnum n) ;;; Ret n) s) with (stop (@astep _) m (assert_ (isalnum n) ;;; Ret n) (inited s)) by (symmetry; exact H).
    destruct (isalnum n); cbn [assert_ bind]; rewrite ?stop_ret, ?stop_raise; exact Hi.
Qed.
Lemma late_add n regex kh bin mode s : keygen_of s n = None -> late n (add_account n regex kh bin mode) s.
Proof.
  intros Hk. unfold add_account. destruct (isalnum n) eqn:Hn.
  - intros k. pose proof (nokey_get_account n s Hk) as Hg. pose proof (nokey_end _ _ _ Hg) as He.
    destruct (stop_bind (@astep _) (get_account n false) (fun a => ex <- account_exists a ;; (if ex then Raise AccountExists else
       create a (match regex with Some r => r | None => L ".*" end) kh bin mode ;;; Ret a)) k s) as [->|[a [m [Ha ->]]]]; [left; apply Hg|].
    fold (arun (get_account n false) s) in *. rewrite arun_bind. rewrite arun_get_account_nocheck, Hn in *. cbn [snd fst] in *. injection Ha as <-.
    assert (H : forall s', keygen_of s' n = None -> late n (ex <- account_exists n ;; (if ex then Raise AccountExists else
       create n (match regex with Some r => r | None => L ".*" end) kh bin mode ;;; Ret n)) s').
    { intros s' Hs'. apply late_pre; [intros i; rewrite stop_exists; exact Hs'|]. intros [] s2 H2; [apply nokey_late, nokey_quiet; [quiets|exact H2]|].
      apply late_post; [apply late_create, H2|]. intros; quiets. }
    apply H, He.
  - apply nokey_late. intros k. pose proof (nokey_get_account n s Hk) as Hg.
    match goal with |- context[stop _ k (bind _ ?f) s] => destruct (stop_bind (@astep _) (get_account n false) f k s) as [->|[a [m [Ha ->]]]] end; [apply Hg|].
    exfalso. fold (arun (get_account n false) s) in *. rewrite arun_get_account_nocheck, Hn in Ha. discriminate.
Qed.
Lemma c98_new s c k n mode : reachable s -> creates c = Some (n, mode) -> ~ has_account s n ->
  ~ has_account (killed s c k) n \/ forall b, same_account (after s c) (killed s c k) b.
Proof.
  intros Hr Hc He. pose proof (WF_reachable s Hr) as Hw.
  assert (Hne : ~ exists_acct s n) by (intros H; apply He, has_account_exists; auto).
  pose proof (keygen_none s n Hw Hne) as Hk.
  assert (Hw1 : WF (killed s c k)) by (apply reachable_WF, reachable_killed, Hr).
  assert (HL : late n (exec c) s).
  { destruct c; simpl in Hc; try discriminate; injection Hc as -> _; cbn [exec].
    - apply late_post; [apply late_add, Hk|]. intros; quiets.
    - apply late_post; [|intros; quiets]. unfold cli_add_account. apply late_post; [apply late_add, Hk|]. intros; apply quiet_status_account. }
  destruct (HL k) as [H|H].
  - left. intros Hc1. apply has_account_exists in Hc1; [|exact Hw1]. destruct Hc1 as [c0 [k0 [_ Hk0]]]. unfold killed in Hk0. congruence.
  - right. intros b. apply same_account_logs; [apply WF_after; exact Hw|exact Hw1|]. intros m _. unfold alog, after, killed. rewrite H. reflexivity.
Qed.

End KillProofs.
