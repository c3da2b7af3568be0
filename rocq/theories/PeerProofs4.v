(** Proofs for C12, C13, C15-C19. *)
From Verif Require Import Base PyStr Base64 Env Prog Chain Gpg Mime States Recommendation Account Cmdline Bot Fs Api Steps StepFacts Exec ApiScope Spec Obs PeerSpec Incoming PeerFacts PeerProofs PeerProofs2 PeerProofs3.

Section PeerProofs4.
Context {E : Env}.
Open Scope Z_scope.

(** ** Where gossip comes from *)
Lemma scope_gossip c a x id d kd kh : api_scope c (LGossip a x id d kd kh) ->
  exists m, In m (mails_for a c) /\ decrypts c = true /\ is_encrypted m = Ok true /\ id = msg_id_text m /\
    (exists d0, dated m d0 /\ d <= d0) /\
    exists content r pahs p, opens a m content /\ In r (get_target_emailadr (opened_as m content)) /\ x = norm r /\
      get_gossip_headers_from_msg (opened_as m content) = Ok pahs /\ dget pahs r = Some p /\ kd = p_keydata p.
Proof.
  assert (Hinc : forall b m nd, inc_scope b m nd (LGossip a x id d kd kh) -> b = a /\ nd = false /\
     is_encrypted m = Ok true /\ id = msg_id_text m /\ (exists d0, dated m d0 /\ d <= d0) /\
     exists content r pahs p, opens a m content /\ In r (get_target_emailadr (opened_as m content)) /\ x = norm r /\
      get_gossip_headers_from_msg (opened_as m content) = Ok pahs /\ dget pahs r = Some p /\ kd = p_keydata p).
  { intros b m nd [-> H]. split; [reflexivity|]. exact H. }
  intros H. destruct c; simpl in H; unfold sc_a, sc_gpg in H; try discriminate; try tauto;
    try (destruct H as [H|H]; try discriminate; try tauto; fail).
  - destruct H as [H|H]; [discriminate|]. apply Hinc in H. destruct H as [-> [-> H]]. exists m.
    split; [simpl; rewrite text_eqb_refl; simpl; auto|]. split; [reflexivity|exact H].
  - destruct H as [_ H]. discriminate.
  - destruct H as [H|[b [Hb H]]]; [discriminate|]. apply Hinc in H. destruct H as [-> [-> H]]. exists m.
    split; [|split; [reflexivity|exact H]]. simpl. destruct name as [n|]; [|simpl; auto]. rewrite <- (Hb n eq_refl), text_eqb_refl. simpl; auto.
  - destruct H as [H|[b [mt [m [Hi H]]]]]; [destruct H|]. apply Hinc in H. destruct H as [-> [_ H]]. exists m.
    split; [|split; [reflexivity|exact H]]. simpl. apply in_map_iff. exists (mt, m). auto.
  - destruct H as [H|[b H]]; [destruct H|]. apply Hinc in H. destruct H as [-> [_ H]]. exists m.
    split; [simpl; auto|]. split; [reflexivity|exact H].
Qed.

(** a gossip entry comes from an encrypted mail that gossips this key for this recipient *)
Definition gossip_origin (c : api) (a x : text) (g : gossip_entry) : Prop :=
  exists m, In m (mails_for a c) /\ decrypts c = true /\ is_encrypted m = Ok true /\ ge_id g = msg_id_text m /\
    (exists d0, dated m d0 /\ ge_date g <= d0) /\
    exists content r pahs p, opens a m content /\ In r (get_target_emailadr (opened_as m content)) /\ x = norm r /\
      get_gossip_headers_from_msg (opened_as m content) = Ok pahs /\ dget pahs r = Some p /\ Some (ge_keydata g) = p_keydata p.

Lemma gossip_entries_other t e l : (forall g, e <> EGossip g) -> gossip_entries (Block t e :: l) = gossip_entries l.
Proof. intros H. cbn. destruct e as [| |g| | |]; auto; edestruct H; reflexivity. Qed.
Lemma msg_entries_other t e l : (forall g, e <> EMsg g) -> msg_entries (Block t e :: l) = msg_entries l.
Proof. intros H. cbn. destruct e; auto. edestruct H; reflexivity. Qed.

(** the gossip entries after one step: as before, none, or one more from gossip *)
Lemma step_gossips s l a x : guard s l -> isalnum a = true ->
  gossip_entries (peer_log (step l s) a x) = gossip_entries (peer_log s a x) \/
  gossip_entries (peer_log (step l s) a x) = [] /\ removes a l \/
  exists id d k h, l = LGossip a x id d (Some k) (Some h) /\
    gossip_entries (peer_log (step l s) a x) = GossipEntry id d k h :: gossip_entries (peer_log s a x).
Proof.
  intros Hg Ha. unfold peer_log.
  destruct (step_log s l (peer_chain a x)) as [->|[[Hr H]|[e [-> He]]]]; [auto| |].
  - destruct Hr as [->|[b ->]]; [right; left; rewrite H; split; [reflexivity|left; reflexivity]|].
    destruct (text_eqb_spec a b) as [<-|Hn]; [right; left; rewrite H; split; [reflexivity|right; reflexivity]|].
    left. rewrite step_frame; [reflexivity|]. simpl. rewrite match_account_peer by exact Ha. apply text_eqb_neq in Hn. congruence.
  - destruct l; simpl in He; try tauto; destruct He as [Hn He].
    + left. destruct He as [p [k [h ->]]]. reflexivity.
    + right. right. destruct He as [k [h [-> [-> ->]]]]. destruct Hg as [Hb _]. apply peer_chain_inj in Hn; auto. destruct Hn as [-> ->].
      exists id, date, k, h. split; reflexivity.
    + exfalso. symmetry in Hn. eapply own_peer; eauto.
    + exfalso. symmetry in Hn. eapply own_peer; eauto.
    + exfalso. symmetry in Hn. eapply oob_peer; eauto.
    + exfalso. eapply peer_mgr; eauto.
Qed.
Lemma path_gossips c a x s ls s' : path s ls s' -> Forall (api_scope c) ls -> deletes a c = false -> isalnum a = true ->
  exists new, gossip_entries (peer_log s' a x) = new ++ gossip_entries (peer_log s a x) /\ Forall (gossip_origin c a x) new.
Proof.
  intros Hp. induction Hp as [|s l ls s' Hg Hp IH]; intros HF Hd Ha.
  - exists []. auto.
  - inversion HF as [|? ? Hl HF']; subst. destruct (IH HF' Hd Ha) as [new [H1 H2]].
    destruct (step_gossips s l a x Hg Ha) as [H|[[_ H]|[id [d [k [h [-> H]]]]]]].
    + exists new. rewrite H1, H. auto.
    + destruct (scope_removes a c l Hl Hd H).
    + exists (new ++ [GossipEntry id d k h]). rewrite H1, H, <- app_assoc. split; [reflexivity|]. apply Forall_app. split; [exact H2|].
      constructor; [|constructor]. exact (scope_gossip c a x id d (Some k) (Some h) Hl).
Qed.
Lemma after_gossips c a x s : WF s -> deletes a c = false -> isalnum a = true ->
  exists new, gossip_entries (peer_log (after s c) a x) = new ++ gossip_entries (peer_log s a x) /\ Forall (gossip_origin c a x) new.
Proof. intros Hw Hd Ha. destruct (after_path s c Hw) as [ls [Hp HF]]. eapply path_gossips; eauto. Qed.

(** one call to process_incoming: all gossip has the effective date of the mail *)
Lemma gossip_path_gossips a m nd date s ls s' x : path s ls s' -> Forall (gossip_scope a m nd date) ls -> isalnum a = true ->
  exists new, gossip_entries (peer_log s' a x) = new ++ gossip_entries (peer_log s a x) /\
    Forall (fun g => ge_date g = date /\ ge_id g = msg_id_text m /\ nd = false /\ is_encrypted m = Ok true) new.
Proof.
  intros Hp. induction Hp as [|s l ls s' Hg Hp IH]; intros HF Ha; [exists []; auto|].
  inversion HF as [|? ? Hl HF']; subst. destruct (IH HF' Ha) as [new [H1 H2]].
  destruct (step_gossips s l a x Hg Ha) as [H|[[_ [->| ->]]|[id [d [k [h [-> H]]]]]]].
  - exists new. rewrite H1, H. auto.
  - destruct Hl.
  - destruct Hl.
  - exists (new ++ [GossipEntry id d k h]). rewrite H1, H, <- app_assoc. split; [reflexivity|]. apply Forall_app. split; [exact H2|].
    constructor; [|constructor]. destruct Hl as [_ [-> [-> [He [-> _]]]]]. auto.
Qed.
Lemma incoming_gossips a m ign nd s x : WF s -> exists_acct s a ->
  exists new, gossip_entries (peer_log (after s (AIncoming a m ign nd)) a x) = new ++ gossip_entries (peer_log s a x) /\
    Forall (fun g => exists d, dated m d /\ ge_date g = Z.min d (clock (a_tick s)) /\ ge_id g = msg_id_text m /\
                     nd = false /\ is_encrypted m = Ok true) new.
Proof.
  intros Hw He. destruct (answer_incoming s a m ign nd Hw He) as [-> _]. pose proof (exists_isalnum s a Hw He) as Ha.
  destruct (incoming_effect a m ign nd s Hw He) as [e Hl Hr|Hl Hr Hi Hm|d p s1 kh p' ls Hd Hp Hi Hl1 Hn Hpath HF Hr].
  - exists []. rewrite (logs_peer _ _ _ _ Hl). auto.
  - exists []. rewrite (logs_peer _ _ _ _ Hl). auto.
  - destruct (gossip_path_gossips a m nd _ _ _ _ x Hpath HF Ha) as [new [H1 H2]]. exists new. rewrite H1. split.
    + f_equal. destruct (step_msg_log s1 a (sender_of m) (msg_id_text m) (Z.min d (clock (a_tick s))) (p_pref p) (p_keydata p) kh x) as [_ ->].
      rewrite (logs_peer s s1) by exact Hl1. reflexivity.
    + eapply Forall_impl; [|exact H2]. intros g [G1 [G2 [G3 G4]]]. exists d. auto.
Qed.

Lemma view_gossip ch l : pv_latest_gossip (view_of ch l) = hd_error (gossip_entries l). Proof. reflexivity. Qed.

(** ** C12 *)
Theorem c12_step : forall s a m ign nd x v, reachable s -> peer_of s a x = Some v ->
  exists v', peer_of (after s (AIncoming a m ign nd)) a x = Some v' /\
    (pv_latest_gossip v' = pv_latest_gossip v \/
     exists g d, pv_latest_gossip v' = Some g /\ dated m d /\ ge_date g = Z.min d (clock (a_tick s)) /\
       ge_id g = msg_id_text m /\ nd = false /\ is_encrypted m = Ok true).
Proof.
  intros s a m ign nd x v Hr Hv. pose proof (reachable_WF s Hr) as Hw. destruct (peer_of_some s a x v Hw Hv) as [He ->].
  assert (He' : exists_acct (after s (AIncoming a m ign nd)) a) by (apply after_exists; auto).
  eexists. split; [apply peer_of_spec; auto; apply WF_after; exact Hw|]. rewrite !view_gossip.
  destruct (incoming_gossips a m ign nd s (norm x) Hw He) as [new [-> H]].
  destruct new as [|g new]; [left; reflexivity|]. right. inversion H as [|? ? [d Hg]]; subst. exists g, d. simpl. auto.
Qed.
Theorem c12_ordered : forall s a m ign nd x v g d, reachable s -> peer_of s a x = Some v -> pv_latest_gossip v = Some g ->
  dated m d -> ge_date g <= Z.min d (clock (a_tick s)) ->
  exists v' g', peer_of (after s (AIncoming a m ign nd)) a x = Some v' /\ pv_latest_gossip v' = Some g' /\ ge_date g <= ge_date g'.
Proof.
  intros s a m ign nd x v g d Hr Hv Hg Hd Hle. destruct (c12_step s a m ign nd x v Hr Hv) as [v' [H1 [H2|[g' [d' [H2 [H3 [H4 _]]]]]]]].
  - exists v', g. split; [exact H1|]. split; [congruence|lia].
  - exists v', g'. split; [exact H1|]. split; [exact H2|]. unfold dated in *. rewrite Hd in H3. injection H3 as <-. lia.
Qed.

(** ** C15 *)
Theorem c15 : forall s a m ign nd x v, reachable s -> nd = true \/ is_encrypted m <> Ok true -> peer_of s a x = Some v ->
  exists v', peer_of (after s (AIncoming a m ign nd)) a x = Some v' /\ pv_latest_gossip v' = pv_latest_gossip v /\
    (norm x <> sender_of m -> v' = v).
Proof.
  intros s a m ign nd x v Hr Hno Hv. destruct (c12_step s a m ign nd x v Hr Hv) as [v' [H1 H2]]. exists v'. split; [exact H1|]. split.
  - destruct H2 as [H2|[g [d [_ [_ [_ [_ [H3 H4]]]]]]]]; [exact H2|]. destruct Hno; congruence.
  - intros Hx. destruct (c14 s a m ign nd Hr) as [_ [_ [_ [_ [_ H]]]]]. specialize (H x Hx). rewrite H1, Hv in H.
    assert (Some v' = Some v) as [= ->] by (apply H; tauto). reflexivity.
Qed.

(** ** C17 *)
Lemma view_direct ch l e : pv_latest_ac (view_of ch l) = Some e -> pv_direct (view_of ch l) = true ->
  pv_keydata (view_of ch l) = me_keydata e /\ pv_pref (view_of ch l) = me_pref e /\ pv_keyhandle (view_of ch l) = me_kh e.
Proof.
  cbn. intros He Hd. unfold public_keydata, peer_prefer_encrypt, public_keyhandle, entry_for_encryption. rewrite Hd, He. auto.
Qed.
Theorem c17 : forall s b m ign nd a x v, reachable s -> peer_of s a x = Some v ->
  exists v', peer_of (after s (AIncoming b m ign nd)) a x = Some v' /\
    (pv_latest_ac v' = pv_latest_ac v /\ pv_ac_timestamp v' = pv_ac_timestamp v /\ pv_direct v' = pv_direct v \/
     b = a /\ sender_of m = norm x /\
     exists e, pv_latest_ac v' = Some e /\ me_keydata e <> [] /\ carries m (me_keydata e) (me_pref e) /\
       pv_ac_timestamp v' = me_date e /\
       (pv_direct v' = true -> pv_keydata v' = me_keydata e /\ pv_pref v' = me_pref e)).
Proof.
  intros s b m ign nd a x v Hr Hv. pose proof (reachable_WF s Hr) as Hw. destruct (peer_of_some s a x v Hw Hv) as [He ->].
  assert (He' : exists_acct (after s (AIncoming b m ign nd)) a) by (apply after_exists; auto).
  eexists. split; [apply peer_of_spec; auto; apply WF_after; exact Hw|].
  set (l := peer_log s a (norm x)). set (l' := peer_log (after s (AIncoming b m ign nd)) a (norm x)).
  destruct (c08_step s (AIncoming b m ign nd) a (norm x) Hw He eq_refl) as [[H|[e [H Ho]]] _]; fold l l' in H.
  - left. cbn. unfold autocrypt_timestamp, has_direct_key. rewrite !ac_of_log, H. auto.
  - right. destruct Ho as [m' [ign' [nd' [d [[= -> -> -> ->] [Hs [_ [_ [_ [_ [Hne Hc]]]]]]]]]]].
    split; [reflexivity|]. split; [exact Hs|]. exists e. split; [exact H|]. split; [exact Hne|]. split; [exact Hc|]. split.
    + cbn. unfold autocrypt_timestamp. rewrite ac_of_log, H. reflexivity.
    + intros Hd. destruct (view_direct (peer_chain a (norm x)) l' e H Hd) as [H1 [H2 _]]. auto.
Qed.

(** ** C19 *)
Theorem c19 : forall s a m ign nd x v, reachable s -> peer_of s a x = Some v -> sender_of m = norm x ->
  (forall k p, ~ carries m k p) ->
  exists v', peer_of (after s (AIncoming a m ign nd)) a x = Some v' /\
    pv_latest_ac v' = pv_latest_ac v /\ pv_ac_timestamp v' = pv_ac_timestamp v /\ pv_direct v' = pv_direct v /\
    pv_last_seen v <= pv_last_seen v' /\
    (pv_direct v = true \/ nd = true \/ is_encrypted m <> Ok true \/ (forall content, opens a m content -> ~ recipient (opened_as m content) (norm x)) ->
     pv_keydata v' = pv_keydata v /\ pv_keyhandle v' = pv_keyhandle v /\ pv_pref v' = pv_pref v).
Proof.
  intros s a m ign nd x v Hr Hv Hs Hno. pose proof (reachable_WF s Hr) as Hw. destruct (peer_of_some s a x v Hw Hv) as [He ->].
  pose proof (exists_isalnum s a Hw He) as Ha.
  assert (He' : exists_acct (after s (AIncoming a m ign nd)) a) by (apply after_exists; auto).
  eexists. split; [apply peer_of_spec; auto; apply WF_after; exact Hw|].
  set (l := peer_log s a (norm x)). set (l' := peer_log (after s (AIncoming a m ign nd)) a (norm x)).
  assert (Hac : ac_of (msg_entries l') = ac_of (msg_entries l)).
  { destruct (c08_step s (AIncoming a m ign nd) a (norm x) Hw He eq_refl) as [[H|[e [H Ho]]] _]; [exact H|]. exfalso.
    destruct Ho as [m' [ign' [nd' [d [[= -> -> ->] [_ [_ [_ [_ [_ [_ Hc]]]]]]]]]]]. eapply Hno; eauto. }
  split; [exact Hac|]. split; [cbn; unfold autocrypt_timestamp; rewrite !ac_of_log, Hac; reflexivity|].
  assert (Hdir : has_direct_key l' = has_direct_key l) by (unfold has_direct_key; rewrite !ac_of_log, Hac; reflexivity).
  split; [exact Hdir|]. split.
  - rewrite !view_seen. destruct (seen_step s (AIncoming a m ign nd) a (norm x) Hw He eq_refl) as [H|[e [H [_ [_ Hor]]]]]; fold l l' in H; rewrite H.
    + lia.
    + rewrite seen_of_cons. fold l in Hor. destruct Hor as [Hor|[m' [i' [n' [[= -> -> ->] [_ Hc]]]]]]; [lia|]. exfalso. eapply Hno; eauto.
  - intros Hcase.
    assert (Hent : entry_for_encryption l' = entry_for_encryption l).
    { unfold entry_for_encryption. rewrite Hdir. destruct (has_direct_key l) eqn:Ed; [rewrite !ac_of_log, Hac; reflexivity|].
      assert (Hgs : gossip_entries l' = gossip_entries l).
      { destruct (after_gossips (AIncoming a m ign nd) a (norm x) s Hw eq_refl Ha) as [new [H1 H2]]. fold l l' in H1. rewrite H1.
        destruct new as [|g new]; [reflexivity|]. exfalso. inversion H2 as [|? ? Ho]; subst.
        destruct Ho as [m' [Hm [Hdec [Henc [_ [_ [content [r [pahs [p [Hop [Hrr [Hx _]]]]]]]]]]]]].
        simpl in Hm. rewrite text_eqb_refl in Hm. destruct Hm as [<-|[]]. simpl in Hdec.
        destruct Hcase as [Hc|[Hc|[Hc|Hc]]].
        - change (has_direct_key l = true) in Hc. congruence.
        - subst nd. discriminate.
        - congruence.
        - apply (Hc content Hop). exists r. auto. }
      unfold latest_gossip_entry. rewrite Hgs. reflexivity. }
    cbn. unfold public_keydata, public_keyhandle, peer_prefer_encrypt. rewrite Hent. auto.
Qed.

(** ** C16 *)
Definition dates_ok (s : ast) : Prop := forall n b, In b (alog s n) ->
  match bl_entry b with
  | EMsg e => exists i, (i < a_tick s)%nat /\ me_date e <= clock i
  | EGossip g => exists i, (i < a_tick s)%nat /\ ge_date g <= clock i
  | _ => True
  end.
Lemma dates_step s l : guard s l -> dates_ok s -> dates_ok (step l s).
Proof.
  intros Hg Hs n b Hb. pose proof (step_tick_mono s l) as Ht.
  assert (Hold : In b (alog s n) -> match bl_entry b with
    | EMsg e => exists i, (i < a_tick (step l s))%nat /\ me_date e <= clock i
    | EGossip g => exists i, (i < a_tick (step l s))%nat /\ ge_date g <= clock i
    | _ => True end).
  { intros H. specialize (Hs n b H). destruct (bl_entry b); auto; destruct Hs as [i [H1 H2]]; exists i; split; auto; lia. }
  destruct (step_log s l n) as [H|[[_ H]|[e [H He]]]]; rewrite H in Hb; [exact (Hold Hb)|destruct Hb|].
  destruct Hb as [<-|Hb]; [|exact (Hold Hb)]. cbn [bl_entry].
  destruct l; simpl in He; try tauto; destruct He as [_ He].
  - destruct He as [p [k [h ->]]]. destruct Hg as [_ [_ [i [H1 H2]]]]. exists i. split; [lia|exact H2].
  - destruct He as [k [h [_ [_ ->]]]]. destruct Hg as [_ [_ [i [H1 H2]]]]. exists i. split; [lia|exact H2].
  - subst. exact I.
  - subst. exact I.
  - subst. exact I.
  - subst. exact I.
Qed.
Lemma reachable_dates s : reachable s -> dates_ok s.
Proof.
  intros Hr. assert (WF s /\ dates_ok s); [|tauto]. revert s Hr. apply reachable_ind.
  - split; [apply WF_init|]. intros n b [].
  - intros s c n _ [Hw Hd]. destruct (killed_path c n s Hw) as [ls [Hp _]]. split; [eapply path_WF; eauto|]. revert Hd. apply path_inv with (ls := ls); [|exact Hp].
    intros s0 l Hg _. apply dates_step; exact Hg.
Qed.
Lemma In_msg_entries l e : In e (msg_entries l) -> exists t, In (Block t (EMsg e)) l.
Proof.
  induction l as [|[t en] l IH]; cbn; [intros []|]. destruct en; cbn; intros H; try (destruct (IH H) as [t' H']; eauto; fail).
  destruct H as [->|H]; [eauto|]. destruct (IH H) as [t' H']; eauto.
Qed.
Lemma In_gossip_entries l e : In e (gossip_entries l) -> exists t, In (Block t (EGossip e)) l.
Proof.
  induction l as [|[t en] l IH]; cbn; [intros []|]. destruct en; cbn; intros H; try (destruct (IH H) as [t' H']; eauto; fail).
  destruct H as [->|H]; [eauto|]. destruct (IH H) as [t' H']; eauto.
Qed.
Lemma hd_error_In {A} (l : list A) x : hd_error l = Some x -> In x l.
Proof. destruct l; simpl; intros [=]; auto. Qed.

Theorem c16_past : forall s a x v, reachable s -> peer_of s a x = Some v ->
  (forall d, d = pv_ac_timestamp v \/ d = pv_last_seen v -> d = 0 \/ exists i, (i < a_tick s)%nat /\ d <= clock i) /\
  (forall g, pv_latest_gossip v = Some g -> exists i, (i < a_tick s)%nat /\ ge_date g <= clock i).
Proof.
  intros s a x v Hr Hv. pose proof (reachable_WF s Hr) as Hw. destruct (peer_of_some s a x v Hw Hv) as [He ->].
  pose proof (reachable_dates s Hr (peer_chain a (norm x))) as Hd.
  assert (Hm : forall e, In e (msg_entries (peer_log s a (norm x))) -> exists i, (i < a_tick s)%nat /\ me_date e <= clock i).
  { intros e Hi. apply In_msg_entries in Hi. destruct Hi as [t Hi]. exact (Hd _ Hi). }
  split.
  - intros d [->| ->].
    + rewrite view_ts. unfold ts_of. destruct (ac_of _) as [e|] eqn:Ee; [right|auto]. apply Hm. apply ac_of_In in Ee. tauto.
    + rewrite view_seen. unfold seen_of. destruct (hd_error _) as [e|] eqn:Ee; [right|auto]. apply Hm. apply hd_error_In; exact Ee.
  - intros g Hg. rewrite view_gossip in Hg. apply hd_error_In, In_gossip_entries in Hg. destruct Hg as [t Hi]. exact (Hd _ Hi).
Qed.
Theorem c16_now : forall s a x v, (forall i j, (i <= j)%nat -> clock i <= clock j) -> 0 <= clock 0%nat ->
  reachable s -> peer_of s a x = Some v ->
  pv_ac_timestamp v <= clock (a_tick s) /\ pv_last_seen v <= clock (a_tick s) /\
  (forall g, pv_latest_gossip v = Some g -> ge_date g <= clock (a_tick s)).
Proof.
  intros s a x v Hmono H0 Hr Hv. destruct (c16_past s a x v Hr Hv) as [H1 H2].
  assert (Hz : 0 <= clock (a_tick s)) by (pose proof (Hmono 0%nat (a_tick s)); lia).
  assert (Hb : forall d, d = 0 \/ (exists i, (i < a_tick s)%nat /\ d <= clock i) -> d <= clock (a_tick s)).
  { intros d [->|[i [Hi Hd]]]; [exact Hz|]. pose proof (Hmono i (a_tick s)). lia. }
  split; [apply Hb, H1; auto|]. split; [apply Hb, H1; auto|]. intros g Hg. apply Hb. right. apply H2; exact Hg.
Qed.
(** A mail with a future date does not block: with a clock that moves on, a key mail dated
    now or later installs its key. *)
Theorem c16_not_blocked : forall s a m ign nd x v d key pref i,
  (forall i j, (i < j)%nat -> clock i < clock j) -> 0 < clock 0%nat ->
  reachable s -> peer_of s a x = Some v -> sender_of m = norm x ->
  dated m d -> clock (a_tick s) <= d -> carries m key pref -> key <> [] ->
  answer s (AIncoming a m ign nd) = Ok (OIncoming (Some i)) ->
  exists v' e, peer_of (after s (AIncoming a m ign nd)) a x = Some v' /\ pv_latest_ac v' = Some e /\
    me_keydata e = key /\ me_pref e = pref /\ me_id e = msg_id_text m /\ me_date e = clock (a_tick s).
Proof.
  intros s a m ign nd x v d key pref i Hmono H0 Hr Hv Hs Hd Hle Hc Hne Hans.
  pose proof (reachable_WF s Hr) as Hw. destruct (peer_of_some s a x v Hw Hv) as [He ->].
  assert (He' : exists_acct (after s (AIncoming a m ign nd)) a) by (apply after_exists; auto).
  pose proof (reachable_dates s Hr (peer_chain a (norm x))) as Hdates.
  assert (Hlt : forall e, In e (msg_entries (peer_log s a (norm x))) -> me_date e < clock (a_tick s)).
  { intros e Hi. apply In_msg_entries in Hi. destruct Hi as [t Hi]. destruct (Hdates _ Hi) as [j [Hj Hje]]. specialize (Hmono j (a_tick s) Hj). cbn in Hje. lia. }
  assert (Hpos : 0 < clock (a_tick s)).
  { destruct (a_tick s) as [|k] eqn:Ek; [exact H0|]. specialize (Hmono 0%nat (S k)). lia. }
  destruct (incoming_msgs a m ign nd s Hw He) as [_ [[_ Hno]|[d' [p [kh [Hd' [Hpar Hms]]]]]]]; [destruct (Hno i Hans)|].
  unfold dated in *. rewrite Hd in Hd'. injection Hd' as <-.
  apply carries_parse in Hc. destruct Hc as [Hvp [ex Hc]]. rewrite Hpar in Hc. injection Hc as ->.
  rewrite Hs in Hms. cbn [p_pref p_keydata] in Hms. replace (Z.min d (clock (a_tick s))) with (clock (a_tick s)) in Hms by lia.
  set (l := peer_log s a (norm x)) in *.
  eexists; eexists. split; [apply peer_of_spec; auto; apply WF_after; exact Hw|]. rewrite view_ac, Hms.
  unfold decide_msgs, msg_decide.
  destruct (Z.ltb_spec (clock (a_tick s)) (autocrypt_timestamp l)) as [Hb|_].
  { exfalso. rewrite ts_of_log in Hb. unfold ts_of in Hb. destruct (ac_of (msg_entries l)) as [e|] eqn:Ee; [|lia].
    apply ac_of_In in Ee. destruct Ee as [Ee _]. specialize (Hlt e Ee). lia. }
  cbv zeta. destruct (match get_message_entry l (msg_id_text m) with Some _ => _ | None => _ end) eqn:Edup.
  { exfalso. destruct (get_message_entry l (msg_id_text m)) as [e|] eqn:Eg; [|discriminate].
    apply get_message_In in Eg. destruct Eg as [Hi _]. specialize (Hlt e Hi).
    do 3 (apply andb_prop in Edup; destruct Edup as [Edup _]). apply Z.eqb_eq in Edup. lia. }
  apply nonempty_true in Hne. rewrite Hne. cbn [negb]. unfold mk_msg_entry. rewrite Hvp.
  unfold ac_of. cbn [find me_keydata]. rewrite Hne. split; [reflexivity|]. cbn. auto.
Qed.

(** ** C18 *)
Lemma step_msgs_In s l a x e : guard s l -> isalnum a = true -> In e (msg_entries (peer_log (step l s) a x)) ->
  In e (msg_entries (peer_log s a x)) \/
  exists id d pref kd kh, l = LMsg a x id d pref kd kh /\ me_id e = id.
Proof.
  intros Hg Ha. unfold peer_log.
  destruct (step_log s l (peer_chain a x)) as [->|[[_ H]|[en [-> He]]]]; [auto|rewrite H; intros []|].
  destruct l; simpl in He; try tauto; destruct He as [Hn He].
  - destruct He as [p [k [h ->]]]. destruct Hg as [Hb _]. apply peer_chain_inj in Hn; auto. destruct Hn as [-> ->].
    cbn. intros [<-|H]; [right|auto]. repeat eexists.
  - destruct He as [k [h [_ [_ ->]]]]. cbn. auto.
  - exfalso. symmetry in Hn. eapply own_peer; eauto.
  - exfalso. symmetry in Hn. eapply own_peer; eauto.
  - exfalso. symmetry in Hn. eapply oob_peer; eauto.
  - exfalso. eapply peer_mgr; eauto.
Qed.
Lemma path_msgs_In c s ls s' a x e : path s ls s' -> Forall (api_scope c) ls -> isalnum a = true ->
  In e (msg_entries (peer_log s' a x)) ->
  In e (msg_entries (peer_log s a x)) \/
  (exists m, In m (mails_for a c) /\ sender_of m = x /\ msg_id_text m = me_id e) \/ me_id e = [].
Proof.
  intros Hp. induction Hp as [|s l ls s' Hg Hp IH]; intros HF Ha Hi; [auto|].
  inversion HF as [|? ? Hl HF']; subst. destruct (IH HF' Ha Hi) as [H|H]; [|auto].
  apply (step_msgs_In s l a x e Hg Ha) in H. destruct H as [H|[id [d [pref [kd [kh [-> Hid]]]]]]]; [auto|].
  apply scope_msg in Hl. destruct Hl as [[m [q [Hm [-> [-> _]]]]]|[addr [key [pr [-> [-> _]]]]]]; [right; left; eauto|auto].
Qed.
Lemma history_msgs_In h : forall s a x e, WF s -> isalnum a = true ->
  In e (msg_entries (peer_log (after_all s h) a x)) ->
  In e (msg_entries (peer_log s a x)) \/ me_id e = [] \/
  exists h1 c h2 m, h = h1 ++ c :: h2 /\ In m (mails_for a c) /\ sender_of m = x /\ msg_id_text m = me_id e.
Proof.
  induction h as [|c h IH]; intros s a x e Hw Ha; [rewrite after_all_nil; auto|]. rewrite after_all_cons. intros Hi.
  destruct (IH (after s c) a x e (WF_after s c Hw) Ha Hi) as [H|[H|[h1 [c' [h2 [m [-> H]]]]]]].
  - destruct (after_path s c Hw) as [ls [Hp HF]]. destruct (path_msgs_In c _ _ _ a x e Hp HF Ha H) as [H1|[[m H1]|H1]]; auto.
    right. right. exists [], c, h, m. auto.
  - auto.
  - right. right. exists (c :: h1), c', h2, m. auto.
Qed.

Theorem c18 : forall h a m nd id, hget m (L "Message-Id") = Some id -> id <> [] -> id <> L "None" ->
  answer (after_all ast0 h) (AIncoming a m true nd) = Ok (OIncoming None) ->
  exists h1 c h2 m', h = h1 ++ c :: h2 /\ In m' (mails_for a c) /\ sender_of m' = sender_of m /\
    hget m' (L "Message-Id") = Some id.
Proof.
  intros h a m nd id Hid Hne HnN Hans. set (s := after_all ast0 h) in *.
  assert (Hw : WF s) by (apply reachable_WF, reachable_after_all, reachable_init).
  destruct (exists_acct_dec s a) as [He|He].
  2:{ exfalso. unfold answer in Hans. cbn [exec] in Hans. rewrite arun_with_account_none in Hans by exact He. discriminate. }
  pose proof (exists_isalnum s a Hw He) as Ha.
  destruct (answer_incoming s a m true nd Hw He) as [_ HA]. rewrite HA in Hans. clear HA.
  assert (Hmid : msg_id_text m = id) by (unfold msg_id_text; rewrite Hid; reflexivity).
  destruct (incoming_effect a m true nd s Hw He) as [e Hl Hr|Hl Hr Hi Hm|d p s1 kh p' ls Hd Hp Hi Hl1 Hn Hpath HF Hr].
  - rewrite Hr in Hans. discriminate.
  - rewrite Hmid in Hm. unfold has_message in Hm. destruct (get_message_entry _ id) as [e|] eqn:Eg; [|discriminate].
    apply get_message_In in Eg. destruct Eg as [Hin Heid].
    destruct (history_msgs_In h ast0 a (sender_of m) e WF_init Ha Hin) as [[]|[H|[h1 [c [h2 [m' [-> [Hm' [Hs' Hid']]]]]]]]]; [congruence|].
    exists h1, c, h2, m'. do 3 (split; [auto|]). rewrite Heid in Hid'. unfold msg_id_text in Hid'.
    destruct (hget m' (L "Message-Id")); congruence.
  - destruct Hr as [[e Hr]|[g Hr]]; rewrite Hr in Hans; discriminate.
Qed.

(** ** C13 *)
(** gpg reports the same key handle whenever the key is imported *)

Lemma decide_again l id d pref kd kh l' : msg_decide l id d pref kd kh = Ok l' ->
  (forall k, kd = Some k -> k <> [] -> kh <> None) ->
  forall t, msg_decide (match l' with Some e => Block t e :: l | None => l end) id d pref kd kh = Ok None.
Proof.
  intros H Hkh t. destruct l' as [e|]; [|exact H].
  pose proof (msg_decide_some _ _ _ _ _ _ _ H) as [Hts Hcase].
  destruct Hcase as [[p [k [-> [Hv [-> [Hk ->]]]]]]|[Hk [Hseen ->]]].
  - pose proof (Hkh k eq_refl (proj1 (nonempty_true k) Hk)) as Hh. destruct kh as [h|]; [|congruence].
    unfold msg_decide.
    replace (autocrypt_timestamp _) with d by (unfold autocrypt_timestamp, latest_ac_entry; cbn [msg_entries bl_entry find me_keydata]; rewrite Hk; reflexivity).
    rewrite Z.ltb_irrefl. unfold get_message_entry. cbn [msg_entries bl_entry find me_id]. rewrite text_eqb_refl.
    cbn [me_date me_keydata me_kh me_pref eq_opt]. rewrite Z.eqb_refl, !text_eqb_refl. reflexivity.
  - unfold msg_decide. change (autocrypt_timestamp (Block t (EMsg (MsgEntry id d (L "nopreference") [] [])) :: l)) with (autocrypt_timestamp l).
    destruct (Z.ltb_spec d (autocrypt_timestamp l)); [reflexivity|]. cbv zeta.
    destruct (match get_message_entry _ id with Some _ => _ | None => _ end); [reflexivity|].
    destruct Hk as [->| ->]; cbn [nonempty negb]; change (last_seen (Block t (EMsg (MsgEntry id d (L "nopreference") [] [])) :: l)) with d; rewrite Z.ltb_irrefl; reflexivity.
Qed.

Lemma gossip_path_plain a m nd date s ls s' : nd = true \/ is_encrypted m <> Ok true ->
  path s ls s' -> Forall (gossip_scope a m nd date) ls -> a_logs s' = a_logs s.
Proof.
  intros Hno. induction 1 as [|s l ls s' Hg Hp IH]; intros HF; [reflexivity|]. inversion HF as [|? ? Hl HF']; subst.
  rewrite IH by exact HF'. destruct l; simpl in Hl; try tauto; [apply step_gpg|].
  exfalso. destruct Hl as [_ [_ [H1 [H2 _]]]]. destruct Hno; congruence.
Qed.

Lemma import_run_kh a p s s' kh p' key h : import_run a p s = (s', Ok (kh, p')) -> has_error p = false -> p_keydata p = Some key ->
  imports_as a key h -> kh = Some h.
Proof.
  intros Hi Herr Hk Himp. unfold import_run in Hi. rewrite Herr in Hi. unfold import_key in Hi. rewrite arun_bind in Hi.
  specialize (Himp s). destruct (arun (get_bingpg a) s) as [s1 [g|]]; [|discriminate]. rewrite Hk, arun_catch, arun_bind in Hi.
  specialize (Himp g s1 eq_refl). destruct (arun (import_keydata g key false) s1) as [s2 [h'|e]]; cbn [snd] in Himp; [|discriminate].
  injection Himp as ->. cbn in Hi. congruence.
Qed.

Theorem c13 : forall s a m ign1 ign2 nd1 nd2 i d, reachable s ->
  (nd1 = true \/ is_encrypted m <> Ok true) -> (nd2 = true \/ is_encrypted m <> Ok true) ->
  (forall key pref, carries m key pref -> exists kh, imports_as a key kh) ->
  answer s (AIncoming a m ign1 nd1) = Ok (OIncoming (Some i)) ->
  let s1 := after s (AIncoming a m ign1 nd1) in
  dated m d -> Z.min d (clock (a_tick s)) = Z.min d (clock (a_tick s1)) ->
  forall n, alog (after s1 (AIncoming a m ign2 nd2)) n = alog s1 n.
Proof.
  intros s a m ign1 ign2 nd1 nd2 i d Hr Hno1 Hno2 Himp Hans. cbv zeta. intros Hd Heff n.
  pose proof (reachable_WF s Hr) as Hw.
  destruct (exists_acct_dec s a) as [He|He].
  2:{ exfalso. unfold answer in Hans. cbn [exec] in Hans. rewrite arun_with_account_none in Hans by exact He. discriminate. }
  destruct (answer_incoming s a m ign1 nd1 Hw He) as [Haft HA]. rewrite HA in Hans. clear HA.
  set (c1 := AIncoming a m ign1 nd1) in *. set (s1 := after s c1) in *.
  assert (Hw1 : WF s1) by (apply WF_after; exact Hw).
  assert (He1 : exists_acct s1 a) by (apply after_exists; auto).
  destruct (answer_incoming s1 a m ign2 nd2 Hw1 He1) as [-> _].
  destruct (incoming_effect a m ign1 nd1 s Hw He) as [e Hl Hr1|Hl Hr1 Hi Hm|d1 p q1 kh p' ls Hd1 Hp Hi Hl1 Hn Hpath HF Hr1];
    [rewrite Hr1 in Hans; discriminate|rewrite Hr1 in Hans; discriminate|].
  unfold dated in *. rewrite Hd in Hd1. injection Hd1 as <-.
  rewrite <- Haft in Hpath. pose proof (gossip_path_plain a m nd1 _ _ _ _ Hno1 Hpath HF) as Hs1.
  destruct (incoming_effect a m ign2 nd2 s1 Hw1 He1) as [e Hl _|Hl _ _ _|d2 p2 q2 kh2 p2' ls2 Hd2 Hp2 Hi2 Hl2 _ Hpath2 HF2 _].
  - unfold alog. rewrite Hl. reflexivity.
  - unfold alog. rewrite Hl. reflexivity.
  - unfold dated in Hd2. rewrite Hd in Hd2. injection Hd2 as <-. rewrite Hp in Hp2. injection Hp2 as <-.
    pose proof (gossip_path_plain a m nd2 _ _ _ _ Hno2 Hpath2 HF2) as Hs2. unfold alog at 1. rewrite Hs2.
    rewrite <- Heff. set (x := sender_of m) in *. set (id := msg_id_text m) in *. set (dt := Z.min d (clock (a_tick s))) in *.
    change (alog (step (LMsg a x id dt (p_pref p) (p_keydata p) kh2) q2) n = alog s1 n).
    assert (Hq2 : forall k, alog q2 k = alog s1 k) by (intros k; unfold alog; rewrite Hl2; reflexivity).
    (* the handle is the same, and not None for a nonempty key *)
    assert (Hkh : kh2 = kh /\ forall k, p_keydata p = Some k -> k <> [] -> kh <> None).
    { destruct (parse_carries m p Hp) as [[Hk Herr]|[key [pr [ex [-> [_ Hc]]]]]].
      - split; [|intros k Hk'; congruence].
        unfold import_run in Hi, Hi2. rewrite Herr in Hi, Hi2. congruence.
      - destruct (Himp key pr Hc) as [h Hh].
        pose proof (import_run_kh a _ _ _ _ _ key h Hi eq_refl eq_refl Hh) as ->.
        pose proof (import_run_kh a _ _ _ _ _ key h Hi2 eq_refl eq_refl Hh) as ->.
        split; [reflexivity|]. discriminate. }
    destruct Hkh as [-> Hkh].
    destruct (text_eqb_spec n (peer_chain a x)) as [->|Hn2].
    2:{ rewrite step_frame by (simpl; exact Hn2). apply Hq2. }
    unfold step, step_prog. rewrite update_from_msg_run.
    rewrite Hq2.
    assert (Hlog : alog s1 (peer_chain a x) =
      match msg_decide (alog s (peer_chain a x)) id dt (p_pref p) (p_keydata p) kh with
      | Ok (Some e) => Block (clock (a_tick q1)) e :: alog s (peer_chain a x)
      | _ => alog s (peer_chain a x) end).
    { unfold alog at 1. rewrite Hs1. change (alog (step (LMsg a x id dt (p_pref p) (p_keydata p) kh) q1) (peer_chain a x) = match msg_decide (alog s (peer_chain a x)) id dt (p_pref p) (p_keydata p) kh with
      | Ok (Some e) => Block (clock (a_tick q1)) e :: alog s (peer_chain a x)
      | _ => alog s (peer_chain a x) end).
      assert (Hq1 : alog q1 (peer_chain a x) = alog s (peer_chain a x)) by (unfold alog; rewrite Hl1; reflexivity).
      unfold step, step_prog. rewrite update_from_msg_run, Hq1.
      destruct (msg_decide _ id dt _ _ _) as [[e|]|]; cbn [decided fst]; try exact Hq1.
      rewrite alog_app, text_eqb_refl, Hq1. reflexivity. }
    assert (Hdec : exists o, msg_decide (alog s (peer_chain a x)) id dt (p_pref p) (p_keydata p) kh = Ok o).
    { pose proof (update_ok s (peer_chain a x) id dt p kh) as Hu. rewrite update_from_msg_run in Hu.
      destruct (msg_decide _ id dt _ _ _) as [o|e]; [eauto|]. cbn in Hu. exfalso.
      assert (Err e = @Ok unit tt); [|discriminate]. apply Hu.
      destruct (parse_carries m p Hp) as [Hf|[k [pr [ex [-> [Hv _]]]]]]; [auto|]. right. exists k, pr. auto. }
    destruct Hdec as [o Ho]. pose proof (decide_again _ _ _ _ _ _ _ Ho Hkh (clock (a_tick q1))) as Hagain.
    assert (Hn1 : msg_decide (alog s1 (peer_chain a x)) id dt (p_pref p) (p_keydata p) kh = Ok None).
    { rewrite Hlog, Ho. destruct o; exact Hagain. }
    rewrite Hn1. cbn [decided fst]. apply Hq2.
Qed.

End PeerProofs4.
