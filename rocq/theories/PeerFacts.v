(** Facts about peer logs, and what the steps of an arbitrary call can do to them. *)
From Verif Require Import Base PyStr Base64 Env Prog Chain Gpg Mime States Recommendation Account Cmdline Bot Fs Api Steps StepFacts Exec ApiScope Spec Obs PeerSpec Incoming.

Section PeerFacts.
Context {E : Env}.
Open Scope Z_scope.

(** ** Message entries of a peer log *)
Definition ac_of (ms : list msg_entry) : option msg_entry := find (fun e => nonempty (me_keydata e)) ms.
Definition ts_of (ms : list msg_entry) : Z := match ac_of ms with Some e => me_date e | None => 0 end.
Definition seen_of (ms : list msg_entry) : Z := match hd_error ms with Some e => me_date e | None => 0 end.
Lemma ac_of_log l : latest_ac_entry l = ac_of (msg_entries l). Proof. reflexivity. Qed.
Lemma ts_of_log l : autocrypt_timestamp l = ts_of (msg_entries l). Proof. reflexivity. Qed.
Lemma seen_of_log l : last_seen l = seen_of (msg_entries l). Proof. reflexivity. Qed.

Lemma peer_ok_nonneg l : peer_ok l -> 0 <= autocrypt_timestamp l.
Proof.
  induction 1 as [|t id d p kd kh l H IH H1 H2 H3|t id d l H IH H1 H2|t id d kd kh l H IH H1 H2].
  - cbn. lia.
  - unfold autocrypt_timestamp, latest_ac_entry. cbn [msg_entries bl_entry find me_keydata]. rewrite H2. simpl. lia.
  - exact IH.
  - exact IH.
Qed.
Lemma peer_ok_seen l : peer_ok l -> autocrypt_timestamp l <= last_seen l.
Proof.
  induction 1 as [|t id d p kd kh l H IH H1 H2 H3|t id d l H IH H1 H2|t id d kd kh l H IH H1 H2].
  - cbn. lia.
  - unfold autocrypt_timestamp, latest_ac_entry. cbn [msg_entries bl_entry find me_keydata]. rewrite H2. cbn. lia.
  - exact H1.
  - exact IH.
Qed.
Lemma peer_ok_ac_max l e : peer_ok l -> In e (msg_entries l) -> nonempty (me_keydata e) = true ->
  0 <= me_date e <= autocrypt_timestamp l.
Proof.
  induction 1 as [|t id d p kd kh l H IH H1 H2 H3|t id d l H IH H1 H2|t id d kd kh l H IH H1 H2];
    cbn [msg_entries bl_entry]; [intros []| | |]; intros Hi Hk.
  - pose proof (peer_ok_nonneg l H). replace (autocrypt_timestamp _) with d
      by (unfold autocrypt_timestamp, latest_ac_entry; cbn [msg_entries bl_entry find me_keydata]; rewrite H2; reflexivity).
    destruct Hi as [<-|Hi]; [simpl; lia|]. specialize (IH Hi Hk). lia.
  - destruct Hi as [<-|Hi]; [discriminate|]. exact (IH Hi Hk).
  - exact (IH Hi Hk).
Qed.
Lemma ac_of_In ms e : ac_of ms = Some e -> In e ms /\ nonempty (me_keydata e) = true.
Proof. unfold ac_of. intros H. apply find_some in H. exact H. Qed.

(** ** One update *)
Definition new_entry (id : text) (d : Z) (p : text) (k : bytes) (kh : option text) : msg_entry :=
  MsgEntry id d p k (match kh with Some h => h | None => [] end).

Inductive decided_to (l : list block) (id : text) (d : Z) (pref : option text) (kd : option bytes) (kh : option text) : list msg_entry -> Prop :=
| dt_same : decided_to l id d pref kd kh (msg_entries l)
| dt_ac p k : pref = Some p -> kd = Some k -> nonempty k = true -> valid_pref p = true -> autocrypt_timestamp l <= d ->
    decided_to l id d pref kd kh (new_entry id d p k kh :: msg_entries l)
| dt_noac : (kd = None \/ kd = Some []) -> autocrypt_timestamp l <= d -> last_seen l < d ->
    decided_to l id d pref kd kh (MsgEntry id d (L "nopreference") [] [] :: msg_entries l).

Lemma decide_msgs_cases l id d pref kd kh : decided_to l id d pref kd kh (decide_msgs l id d pref kd kh).
Proof.
  unfold decide_msgs. destruct (msg_decide l id d pref kd kh) as [[e|]|] eqn:Ed; try apply dt_same.
  apply msg_decide_some in Ed. destruct Ed as [H [[p [k [-> [H1 [-> [H2 ->]]]]]]|[H1 [H2 ->]]]].
  - apply dt_ac; auto.
  - apply dt_noac; auto.
Qed.

(** the newest key after one update *)
Lemma decide_ac l id d pref kd kh :
  let ms := decide_msgs l id d pref kd kh in
  ac_of ms = ac_of (msg_entries l) \/
  exists p k, pref = Some p /\ kd = Some k /\ nonempty k = true /\ valid_pref p = true /\ autocrypt_timestamp l <= d /\
    ac_of ms = Some (new_entry id d p k kh).
Proof.
  cbv zeta. destruct (decide_msgs_cases l id d pref kd kh) as [|p k H1 H2 H3 H4 H5|H1 H2 H3].
  - left; reflexivity.
  - right. exists p, k. repeat (split; [assumption|]). unfold ac_of. cbn [find new_entry me_keydata]. rewrite H3. reflexivity.
  - left. reflexivity.
Qed.
Lemma decide_ts_mono l id d pref kd kh : ts_of (msg_entries l) <= ts_of (decide_msgs l id d pref kd kh).
Proof.
  destruct (decide_ac l id d pref kd kh) as [H|[p [k [_ [_ [_ [_ [H1 H]]]]]]]]; unfold ts_of at 2; rewrite H.
  - unfold ts_of. lia.
  - exact H1.
Qed.
Lemma get_message_In l id e : get_message_entry l id = Some e -> In e (msg_entries l) /\ me_id e = id.
Proof. unfold get_message_entry. intros H. apply find_some in H. destruct H as [H1 H2]. apply text_eqb_eq in H2. auto. Qed.
(** an update with a key brings the timestamp at least to its date *)
Lemma decide_ts_ge l id d p k kh : peer_ok l -> nonempty k = true -> valid_pref p = true ->
  d <= ts_of (decide_msgs l id d (Some p) (Some k) kh).
Proof.
  intros Hl Hk Hp. unfold decide_msgs, msg_decide. destruct (Z.ltb_spec d (autocrypt_timestamp l)) as [Hlt|Hge].
  { rewrite <- ts_of_log. lia. }
  cbv zeta. destruct (match get_message_entry l id with Some _ => _ | None => _ end) eqn:Edup.
  - destruct (get_message_entry l id) as [e|] eqn:Eg; [|discriminate].
    apply get_message_In in Eg. destruct Eg as [Hi _].
    apply andb_prop in Edup. destruct Edup as [Edup _]. apply andb_prop in Edup. destruct Edup as [Edup _].
    apply andb_prop in Edup. destruct Edup as [Ed Ek]. apply Z.eqb_eq in Ed. simpl in Ek. apply text_eqb_eq in Ek.
    rewrite <- ts_of_log. pose proof (peer_ok_ac_max l e Hl Hi) as H. rewrite Ek in H. specialize (H Hk). lia.
  - rewrite Hk. cbn [negb]. unfold mk_msg_entry. rewrite Hp. unfold ts_of, ac_of. cbn [find me_keydata]. rewrite Hk. simpl. lia.
Qed.

Lemma ac_of_some ms e : In e ms -> nonempty (me_keydata e) = true -> ac_of ms <> None.
Proof.
  intros Hi Hk H. unfold ac_of in H. apply (find_none _ _ H) in Hi. congruence.
Qed.
Lemma decide_ac_some l id d p k kh : peer_ok l -> nonempty k = true -> valid_pref p = true -> 0 <= d ->
  ac_of (decide_msgs l id d (Some p) (Some k) kh) <> None.
Proof.
  intros Hl Hk Hp Hd. unfold decide_msgs, msg_decide. destruct (Z.ltb_spec d (autocrypt_timestamp l)) as [Hlt|Hge].
  { rewrite ts_of_log in Hlt. unfold ts_of in Hlt. destruct (ac_of (msg_entries l)); [discriminate|lia]. }
  cbv zeta. destruct (match get_message_entry l id with Some _ => _ | None => _ end) eqn:Edup.
  - destruct (get_message_entry l id) as [e|] eqn:Eg; [|discriminate].
    apply get_message_In in Eg. destruct Eg as [Hi _].
    apply andb_prop in Edup. destruct Edup as [Edup _]. apply andb_prop in Edup. destruct Edup as [Edup _].
    apply andb_prop in Edup. destruct Edup as [Ed Ek]. simpl in Ek. apply text_eqb_eq in Ek.
    apply ac_of_some with (e := e); [exact Hi|]. rewrite Ek. exact Hk.
  - rewrite Hk. cbn [negb]. unfold mk_msg_entry. rewrite Hp. unfold ac_of. cbn [find me_keydata]. rewrite Hk. discriminate.
Qed.

(** ** Steps of arbitrary calls *)
Definition removes (a : text) (l : label) : Prop := l = LRm \/ l = LRemove a.
Lemma scope_removes a c l : api_scope c l -> deletes a c = false -> ~ removes a l.
Proof.
  intros Hs Hd [->| ->].
  - destruct c; simpl in *; unfold inc_any, sc_a, sc_gpg in *; try tauto; try discriminate;
      try (destruct Hs as [Hs|Hs]; try discriminate; try tauto; fail).
    + destruct Hs as [-> _]. discriminate.
    + destruct Hs as [Hs|[b [_ Hs]]]; [discriminate|exact Hs].
    + destruct Hs as [Hs|[b [mt [m [_ Hs]]]]]; exact Hs.
    + destruct Hs as [Hs|[b Hs]]; exact Hs.
  - destruct c; simpl in *; unfold inc_any, sc_a, sc_gpg in *; try tauto; try discriminate;
      try (destruct Hs as [Hs|Hs]; try discriminate; try tauto; fail).
    + destruct Hs as [Hs|Hs]; [discriminate|]. injection Hs as ->. rewrite text_eqb_refl in Hd. discriminate.
    + destruct Hs as [Hs|Hs]; [|tauto]. injection Hs as ->. rewrite text_eqb_refl in Hd. discriminate.
    + destruct Hs as [_ Hs]. discriminate.
    + destruct Hs as [Hs|[b [_ Hs]]]; [discriminate|exact Hs].
    + destruct Hs as [Hs|[b [mt [m [_ Hs]]]]]; exact Hs.
    + destruct Hs as [Hs|[b Hs]]; exact Hs.
Qed.

(** updates from mail within the scope of a call come from one of its mails, or an import *)
Lemma scope_msg a x id d pref kd kh c : api_scope c (LMsg a x id d pref kd kh) ->
  (exists m p, In m (mails_for a c) /\ x = sender_of m /\ id = msg_id_text m /\
     (exists d0, dated m d0 /\ d <= d0) /\
     parse_one_ac_header_from_msg m [from_addr m] = Ok p /\ pref = p_pref p /\ kd = p_keydata p /\
     (has_error p = true -> kh = None)) \/
  (exists addr key pr, c = AImport a addr key pr /\ id = [] /\ pref = Some pr /\
     (exists k h, kd = Some k /\ kh = Some h) /\ forall y, addr = Some y -> x = norm (norm y)).
Proof.
  assert (Hinc : forall b m nd, inc_scope b m nd (LMsg a x id d pref kd kh) -> b = a /\
     exists p, x = sender_of m /\ id = msg_id_text m /\ (exists d0, dated m d0 /\ d <= d0) /\
       parse_one_ac_header_from_msg m [from_addr m] = Ok p /\ pref = p_pref p /\ kd = p_keydata p /\ (has_error p = true -> kh = None)).
  { intros b m nd [-> [-> [-> [[d0 Hd] [p Hp]]]]]. split; [reflexivity|]. exists p.
    split; [reflexivity|]. split; [reflexivity|]. split; [exists d0; exact Hd|]. exact Hp. }
  intros H. destruct c; simpl in H; unfold sc_a, sc_gpg in H; try discriminate; try tauto;
    try (destruct H as [H|H]; try discriminate; try tauto; fail).
  - destruct H as [H|H]; [discriminate|]. apply (Hinc _ _ true) in H. destruct H as [-> [p H]]. left. exists m, p.
    split; [simpl; rewrite text_eqb_refl; simpl; auto|exact H].
  - destruct H as [H|H]; [discriminate|]. destruct H as [-> [-> [-> [H1 H2]]]]. right. exists addr, keydata, pref0.
    repeat (split; [first [reflexivity|exact H1]|]). exact H2.
  - destruct H as [_ H]. discriminate.
  - destruct H as [H|[b [Hb H]]]; [discriminate|]. apply (Hinc _ _ true) in H. destruct H as [-> [p H]]. left. exists m, p.
    split; [|exact H]. simpl. destruct name as [n|]; [|simpl; auto]. rewrite <- (Hb n eq_refl), text_eqb_refl. simpl; auto.
  - destruct H as [H|[b [mt [m [Hi H]]]]]; [destruct H|]. apply (Hinc _ _ true) in H. destruct H as [-> [p H]]. left. exists m, p.
    split; [|exact H]. simpl. apply in_map_iff. exists (mt, m). auto.
  - destruct H as [H|[b H]]; [destruct H|]. apply (Hinc _ _ true) in H. destruct H as [-> [p H]]. left. exists m, p.
    split; [simpl; auto|exact H].
Qed.

Lemma step_msgs s l a x : guard s l -> isalnum a = true -> ~ removes a l ->
  msg_entries (peer_log (step l s) a x) = msg_entries (peer_log s a x) \/
  exists id d pref kd kh, l = LMsg a x id d pref kd kh /\
    msg_entries (peer_log (step l s) a x) = decide_msgs (peer_log s a x) id d pref kd kh.
Proof.
  intros Hg Ha Hr.
  assert (Hframe : ~ writes l (peer_chain a x) -> msg_entries (peer_log (step l s) a x) = msg_entries (peer_log s a x)).
  { intros H. unfold peer_log. rewrite step_frame; auto. }
  destruct l; try (left; apply Hframe; simpl; intros H; first [exact H | eapply own_peer; eauto; fail | eapply oob_peer; eauto; fail | eapply peer_mgr; eauto; fail]).
  - (* LMsg *) destruct (text_eqb_spec acct a) as [->|Hn].
    + destruct (step_msg_log s a addr id date pref kd kh x) as [H _]. rewrite H.
      destruct (text_eqb_spec x addr) as [->|]; [|auto]. right. eauto 10.
    + left. apply Hframe. simpl. intros H. destruct Hg as [Hb _]. apply peer_chain_inj in H; auto. destruct H; congruence.
  - (* LGossip *) left. destruct (text_eqb_spec acct a) as [->|Hn]; [apply step_gossip_log|].
    apply Hframe. simpl. intros H. destruct Hg as [Hb _]. apply peer_chain_inj in H; auto. destruct H; congruence.
  - (* LRemove *) left. apply Hframe. simpl. rewrite match_account_peer by exact Ha. intros H. apply text_eqb_eq in H.
    apply Hr. right. congruence.
  - exfalso. apply Hr. left. reflexivity.
Qed.

(** accounts stay *)
Lemma step_exists s l a : WF s -> guard s l -> ~ removes a l -> exists_acct s a -> exists_acct (step l s) a.
Proof.
  intros Hw Hg Hr He. pose proof (exists_isalnum s a Hw He) as Ha.
  assert (Hf : ~ writes l (own_chain a) -> exists_acct (step l s) a).
  { intros H. eapply exists_acct_frame; [|exact He]. apply step_frame; auto. }
  destruct l; try (apply Hf; simpl; intros H; first [exact H | eapply own_peer; eauto; fail | eapply own_oob; eauto; fail | eapply own_mgr; eauto; fail]).
  - destruct (text_eqb_spec acct a) as [->|Hn].
    + change (step (LCfg a c) s) with (app_log s (own_chain a) (ECfg c)). destruct He as [c0 [k [H1 H2]]].
      exists c, k. rewrite config_app_cfg, keygen_app_cfg. auto.
    + apply Hf. simpl. intros H. apply own_chain_inj in H. congruence.
  - destruct (text_eqb_spec acct a) as [->|Hn].
    + change (step (LKeygen a kd kh) s) with (app_log s (own_chain a) (EKeygen (KeygenEntry kd kh))). destruct He as [c0 [k [H1 H2]]].
      exists c0, (KeygenEntry kd kh). rewrite config_app_keygen, keygen_app_keygen. auto.
    + apply Hf. simpl. intros H. apply own_chain_inj in H. congruence.
  - apply Hf. simpl. rewrite match_account_own by exact Ha. intros H. apply text_eqb_eq in H. apply Hr. right. congruence.
  - exfalso. apply Hr. left. reflexivity.
Qed.
Lemma path_exists s ls s' a : path s ls s' -> WF s -> (forall l, In l ls -> ~ removes a l) -> exists_acct s a -> exists_acct s' a.
Proof.
  induction 1 as [|s l ls s' Hg Hp IH]; intros Hw Hr He; auto.
  apply IH; [apply step_WF; auto | intros; apply Hr; simpl; auto|]. apply step_exists; auto. apply Hr; simpl; auto.
Qed.
Lemma after_exists s c a : WF s -> deletes a c = false -> exists_acct s a -> exists_acct (after s c) a.
Proof.
  intros Hw Hd He. destruct (after_path s c Hw) as [ls [Hp HF]]. eapply path_exists; eauto.
  rewrite Forall_forall in HF. intros l Hl. eapply scope_removes; eauto.
Qed.
Lemma after_all_exists s h a : WF s -> (forall c, In c h -> deletes a c = false) -> exists_acct s a -> exists_acct (after_all s h) a.
Proof.
  revert s; induction h as [|c h IH]; intros s Hw Hd He; [exact He|]. rewrite after_all_cons.
  apply IH; [apply WF_after; exact Hw|intros; apply Hd; simpl; auto|]. apply after_exists; auto. apply Hd; simpl; auto.
Qed.

(** the message entries of a peer grow along a call by entries that come from updates *)
Definition origin (c : api) (a x : text) (e : msg_entry) : Prop :=
  (exists m, In m (mails_for a c) /\ sender_of m = x /\ me_id e = msg_id_text m /\
     (exists d0, dated m d0 /\ me_date e <= d0) /\
     (me_keydata e <> [] -> carries m (me_keydata e) (me_pref e))) \/
  (exists addr key, c = AImport a addr key (me_pref e) /\ me_id e = [] /\
     forall y, addr = Some y -> x = norm (norm y)) \/
  (exists addr key pr, c = AImport a addr key pr /\ me_id e = [] /\ me_keydata e = []).

Lemma decided_origin c a x id d pref kd kh l ms : api_scope c (LMsg a x id d pref kd kh) ->
  decided_to l id d pref kd kh ms -> ms = msg_entries l \/ exists e, ms = e :: msg_entries l /\ origin c a x e.
Proof.
  intros Hs Hd. apply scope_msg in Hs. destruct Hd as [|p k -> -> Hk Hv Hts|Hk Hts Hseen]; [auto| |]; right.
  - eexists. split; [reflexivity|].
    destruct Hs as [[m [q [Hm [-> [-> [Hdt [Hp [Hpref [Hkd Herr]]]]]]]]]|[addr [key [pr [-> [-> [[= ->] [_ Hy]]]]]]]].
    + left. exists m. cbn [me_id me_date me_keydata me_pref new_entry]. do 4 (split; [auto|]). intros _.
      destruct (parse_carries m q Hp) as [[Hf _]|[key [pr [ex [-> [_ Hc]]]]]]; [congruence|].
      simpl in Hpref, Hkd. injection Hpref as ->. injection Hkd as ->. exact Hc.
    + right. left. exists addr, key. simpl. auto.
  - eexists. split; [reflexivity|].
    destruct Hs as [[m [q [Hm [-> [-> [Hdt [Hp [Hpref [Hkd Herr]]]]]]]]]|[addr [key [pr [-> [-> [-> [_ Hy]]]]]]]].
    + left. exists m. cbn [me_id me_date me_keydata me_pref new_entry]. do 4 (split; [auto|]). congruence.
    + right. right. exists addr, key, pr. simpl. auto.
Qed.

Lemma path_msgs c a x s ls s' : path s ls s' -> Forall (api_scope c) ls -> deletes a c = false -> isalnum a = true ->
  exists new, msg_entries (peer_log s' a x) = new ++ msg_entries (peer_log s a x) /\ Forall (origin c a x) new.
Proof.
  intros Hp. induction Hp as [|s l ls s' Hg Hp IH]; intros HF Hd Ha.
  - exists []. auto.
  - inversion HF as [|? ? Hl HF']; subst. destruct (IH HF' Hd Ha) as [new [H1 H2]].
    destruct (step_msgs s l a x Hg Ha (scope_removes a c l Hl Hd)) as [H|[id [d [pref [kd [kh [-> H]]]]]]].
    + exists new. rewrite H1, H. auto.
    + destruct (decided_origin c a x id d pref kd kh _ _ Hl (decide_msgs_cases (peer_log s a x) id d pref kd kh)) as [H3|[e [H3 He]]];
        rewrite H3 in H.
      * exists new. rewrite H1, H. auto.
      * exists (new ++ [e]). rewrite H1, H, <- app_assoc. split; [reflexivity|]. apply Forall_app; auto.
Qed.
Lemma after_msgs c a x s : WF s -> deletes a c = false -> isalnum a = true ->
  exists new, msg_entries (peer_log (after s c) a x) = new ++ msg_entries (peer_log s a x) /\ Forall (origin c a x) new.
Proof. intros Hw Hd Ha. destruct (after_path s c Hw) as [ls [Hp HF]]. eapply path_msgs; eauto. Qed.

(** timestamps along any path *)
Lemma path_ts a x s ls s' : path s ls s' -> isalnum a = true -> (forall l, In l ls -> ~ removes a l) ->
  autocrypt_timestamp (peer_log s a x) <= autocrypt_timestamp (peer_log s' a x).
Proof.
  intros Hp. induction Hp as [|s l ls s' Hg Hp IH]; intros Ha Hr; [lia|].
  etransitivity; [|apply IH; [exact Ha|intros; apply Hr; simpl; auto]].
  rewrite !ts_of_log. destruct (step_msgs s l a x Hg Ha (Hr l (or_introl eq_refl))) as [->|[id [d [pref [kd [kh [-> ->]]]]]]]; [lia|].
  apply decide_ts_mono.
Qed.
Lemma after_ts c a x s : WF s -> deletes a c = false -> isalnum a = true ->
  autocrypt_timestamp (peer_log s a x) <= autocrypt_timestamp (peer_log (after s c) a x).
Proof.
  intros Hw Hd Ha. destruct (after_path s c Hw) as [ls [Hp HF]]. eapply path_ts; eauto.
  rewrite Forall_forall in HF. intros l Hl. eapply scope_removes; eauto.
Qed.

(** the view as a function of message entries *)
Lemma view_ac a x l : pv_latest_ac (view_of (peer_chain a x) l) = ac_of (msg_entries l). Proof. reflexivity. Qed.
Lemma view_ts a x l : pv_ac_timestamp (view_of (peer_chain a x) l) = ts_of (msg_entries l). Proof. reflexivity. Qed.
Lemma view_seen a x l : pv_last_seen (view_of (peer_chain a x) l) = seen_of (msg_entries l). Proof. reflexivity. Qed.

End PeerFacts.
