(** Proofs for C10 and C12 over whole sessions: what last_seen and the newest gossip are. *)
From Verif Require Import Base PyStr Base64 Env Prog Chain Gpg Mime States Recommendation Account Cmdline Bot Fs Api Steps StepFacts Exec ApiScope Spec Obs PeerSpec SeenSpec Incoming PeerFacts PeerProofs PeerProofs2 PeerProofs4 ProgProofs GossipProofs CliProofs2.

Section SeenProofs.
Context {E : Env}.
Open Scope Z_scope.

Lemma noac_kh l e : peer_ok l -> In e (msg_entries l) -> nonempty (me_keydata e) = false -> me_kh e = [].
Proof.
  induction 1 as [|t id d p kd kh l H IH H1 H2 H3|t id d l H IH H1 H2|t id d kd kh l H IH H1 H2]; cbn [msg_entries bl_entry].
  - intros [].
  - intros [<-|Hi] Hn; [cbn [me_keydata] in Hn; congruence|auto].
  - intros [<-|Hi] Hn; [reflexivity|auto].
  - auto.
Qed.

(** an update brings last_seen at least to the date of the mail *)
Lemma decide_seen_ge l id d pref kd kh : peer_ok l ->
  (kd = None \/ exists k p, kd = Some k /\ pref = Some p /\ valid_pref p = true) -> (forall h, kh = Some h -> h <> []) ->
  d <= seen_of (decide_msgs l id d pref kd kh).
Proof.
  intros Hok Hkd Hkh. pose proof (peer_ok_seen l Hok) as Hts. unfold decide_msgs, msg_decide.
  destruct (Z.ltb_spec d (autocrypt_timestamp l)) as [Hb|_]; [rewrite <- seen_of_log; lia|]. cbv zeta.
  destruct (match get_message_entry l id with Some _ => _ | None => _ end) eqn:Edup.
  { destruct (get_message_entry l id) as [e|] eqn:Eg; [|discriminate].
    apply get_message_In in Eg as [Hi _]. apply andb_prop in Edup as [Edup _]. apply andb_prop in Edup as [Edup E3].
    apply andb_prop in Edup as [E1 E2]. apply Z.eqb_eq in E1. rewrite <- seen_of_log.
    destruct (nonempty (me_keydata e)) eqn:En.
    - pose proof (peer_ok_ac_max l e Hok Hi En). lia.
    - exfalso. pose proof (noac_kh l e Hok Hi En) as Hn. destruct kh as [h|]; [|discriminate E3]. simpl in E3.
      apply text_eqb_eq in E3. apply (Hkh h eq_refl). congruence. }
  destruct (nonempty _) eqn:En; cbn [negb].
  - destruct Hkd as [->|[k [p [-> [-> Hp]]]]]; [discriminate|]. unfold mk_msg_entry. rewrite Hp. cbv iota beta. rewrite seen_of_cons. cbn [me_date]. lia.
  - destruct (Z.ltb_spec (last_seen l) d) as [H|H]; [unfold seen_of; simpl; lia|]. rewrite <- seen_of_log. lia.
Qed.

Lemma processed_seen s c a x d i : WF s -> exists_acct s a -> mailed s c a x d -> answer s c = Ok (OIncoming (Some i)) ->
  d <= seen_of (msg_entries (peer_log (after s c) a x)).
Proof.
  intros Hw He [m [ign [nd [d0 [-> [<- [Hd ->]]]]]]] Hans.
  destruct (answer_incoming s a m ign nd Hw He) as [Ha1 Ha2]. rewrite Ha2 in Hans. rewrite Ha1.
  pose proof (exists_isalnum s a Hw He) as Ha.
  destruct (incoming_effect a m ign nd s Hw He) as [e Hl Hr|Hl Hr Hi Hm|d p s1 kh p' ls Hd' Hp Hi Hl1 Hn Hpath HF Hr].
  - rewrite Hr in Hans. discriminate.
  - rewrite Hr in Hans. discriminate.
  - unfold dated in *. rewrite Hd in Hd'. injection Hd' as <-.
    rewrite (gossip_path_msgs _ _ _ _ _ _ _ Hpath HF a (sender_of m) Ha).
    destruct (step_msg_log s1 a (sender_of m) (msg_id_text m) (Z.min d0 (clock (a_tick s))) (p_pref p) (p_keydata p) kh (sender_of m)) as [-> _].
    rewrite !(logs_peer s s1) by exact Hl1. rewrite text_eqb_refl. apply decide_seen_ge; [apply wf_peer; exact Hw| |].
    + destruct (parse_carries m p Hp) as [[Hf _]|[key [pr [ex [-> [Hv _]]]]]]; [auto|]. right. exists key, pr. auto.
    + intros h ->. eapply import_run_nonempty; exact Hi.
Qed.

(** one call: nothing recorded; a mail that only moves last_seen forward; or a key *)
Lemma seen_step3 s c a x : WF s -> exists_acct s a -> plain a c = true ->
  let ms := msg_entries (peer_log s a x) in let ms' := msg_entries (peer_log (after s c) a x) in
  ms' = ms \/
  (ac_of ms' = ac_of ms /\ seen_of ms < seen_of ms' /\ mailed s c a x (seen_of ms')) \/
  exists e, ac_of ms' = Some e /\ seen_of ms' = me_date e /\ offered s c a x (offer_of e).
Proof.
  intros Hw He Hp. cbv zeta. pose proof (exists_isalnum s a Hw He) as Ha.
  destruct (incoming_dec a c) as [[m [ign [nd ->]]]|Hc].
  - destruct (incoming_msgs a m ign nd s Hw He) as [Hother Hsend].
    destruct (text_eqb_spec x (sender_of m)) as [->|Hx]; [|left; auto].
    destruct Hsend as [[Hsame _]|[d [p [kh [Hd [Hpar Hms]]]]]]; [left; exact Hsame|]. rewrite Hms. clear Hms.
    pose proof (wf_peer s Hw a (sender_of m)) as Hok. pose proof (peer_ok_nonneg _ Hok) as Hnn.
    destruct (decide_msgs_cases (peer_log s a (sender_of m)) (msg_id_text m) (Z.min d (clock (a_tick s))) (p_pref p) (p_keydata p) kh)
      as [|pr k Hpr Hk Hne Hv Hts|Hk Hts Hseen]; [left; reflexivity| |]; right.
    + right. eexists. split; [unfold ac_of; cbn [find new_entry me_keydata]; rewrite Hne; reflexivity|]. split; [reflexivity|].
      exists m, ign, nd, d. split; [reflexivity|]. split; [reflexivity|]. split; [exact Hd|]. split; [reflexivity|]. split; [reflexivity|].
      split; [cbn; lia|]. split; [apply nonempty_true; exact Hne|].
      destruct (parse_carries m p Hpar) as [[Hf _]|[key [pr' [ex [-> [_ Hcr]]]]]]; [congruence|].
      cbn in Hpr, Hk. injection Hpr as <-. injection Hk as <-. exact Hcr.
    + left. split; [reflexivity|]. rewrite seen_of_cons. cbn [me_date]. rewrite <- seen_of_log. split; [exact Hseen|].
      exists m, ign, nd, d. auto.
  - left. destruct (after_msgs c a x s Hw (plain_deletes a c Hp) Ha) as [new [H1 H2]].
    destruct new as [|e new]; [exact H1|]. exfalso. inversion H2. eapply plain_origin; eauto.
Qed.

(** *** Sessions, from the end *)
Lemma snoc_split {A} (h h1 h2 : list A) c c' : h ++ [c] = h1 ++ c' :: h2 ->
  (h2 = [] /\ h = h1 /\ c = c') \/ exists h3, h2 = h3 ++ [c] /\ h = h1 ++ c' :: h3.
Proof.
  destruct h2 as [|b h2 _] using rev_ind; intros H.
  - left. apply app_inj_tail in H as [-> ->]. auto.
  - right. exists h2. change (h1 ++ c' :: h2 ++ [b]) with (h1 ++ (c' :: h2) ++ [b]) in H. rewrite app_assoc in H.
    apply app_inj_tail in H as [-> ->]. auto.
Qed.
Lemma mailed_in_snoc s h c a x d : mailed_in s h a x d -> mailed_in s (h ++ [c]) a x d.
Proof. intros [h1 [c' [h2 [-> H]]]]. exists h1, c', (h2 ++ [c]). split; [rewrite <- app_assoc; reflexivity|exact H]. Qed.
Lemma mailed_in_last s h c a x d : mailed (after_all s h) c a x d -> mailed_in s (h ++ [c]) a x d.
Proof. intros H. exists h, c, []. auto. Qed.
Lemma processed_in_snoc s h c a x d : processed_in s (h ++ [c]) a x d -> processed_in s h a x d \/
  mailed (after_all s h) c a x d /\ exists i, answer (after_all s h) c = Ok (OIncoming (Some i)).
Proof.
  intros [h1 [c' [h2 [i [H [Hm Ha]]]]]]. apply snoc_split in H as [[-> [-> ->]]|[h3 [-> ->]]]; [right; eauto|left].
  exists h1, c', h3, i. auto.
Qed.

Lemma newest_snoc d0 s h c a x d d' : newest d0 s h a x d -> d <= d' -> (d' = d \/ mailed (after_all s h) c a x d') ->
  (forall d1 i, mailed (after_all s h) c a x d1 -> answer (after_all s h) c = Ok (OIncoming (Some i)) -> d1 <= d') ->
  newest d0 s (h ++ [c]) a x d'.
Proof.
  intros [N1 [N2 N3]] Hle Hd Hp. split; [lia|]. split.
  - destruct Hd as [->|Hd]; [|right; apply mailed_in_last; exact Hd]. destruct N2 as [->|N2]; [auto|right; apply mailed_in_snoc; exact N2].
  - intros d1 H1. apply processed_in_snoc in H1 as [H1|[H1 [i H2]]]; [specialize (N3 d1 H1); lia|eauto].
Qed.

Lemma WF_all h : forall s, WF s -> WF (after_all s h).
Proof. induction h as [|c h IH]; intros s Hw; [rewrite after_all_nil; exact Hw|]. rewrite after_all_cons. apply IH, WF_after. exact Hw. Qed.
Lemma since h : forall s a x, WF s -> exists_acct s a -> (forall c, In c h -> plain a c = true) ->
  let ms := msg_entries (peer_log s a x) in let ms' := msg_entries (peer_log (after_all s h) a x) in
  (ac_of ms' = ac_of ms /\ newest (seen_of ms) s h a x (seen_of ms')) \/
  exists h1 c h2 e, h = h1 ++ c :: h2 /\ ac_of ms' = Some e /\ offered (after_all s h1) c a x (offer_of e) /\
    newest (me_date e) (after_all s (h1 ++ [c])) h2 a x (seen_of ms').
Proof.
  induction h as [|c h IH] using rev_ind; intros s a x Hw He Hp; cbv zeta.
  - left. rewrite after_all_nil. split; [reflexivity|]. split; [lia|]. split; [auto|].
    intros d [[|] [c [h2 [i [H _]]]]]; discriminate.
  - assert (Hw1 : WF (after_all s h)) by (apply WF_all; exact Hw).
    assert (He1 : exists_acct (after_all s h) a).
    { apply after_all_exists; [exact Hw| |exact He]. intros c' Hc. apply plain_deletes, Hp, in_or_app. auto. }
    assert (Hpc : plain a c = true) by (apply Hp, in_or_app; simpl; auto).
    rewrite after_all_snoc.
    assert (Hproc : forall d1 i, mailed (after_all s h) c a x d1 -> answer (after_all s h) c = Ok (OIncoming (Some i)) ->
      d1 <= seen_of (msg_entries (peer_log (after (after_all s h) c) a x))) by (intros; eapply processed_seen; eauto).
    specialize (IH s a x Hw He (fun c' Hc => Hp c' (in_or_app _ _ _ (or_introl Hc)))). cbv zeta in IH.
    pose proof (seen_step3 (after_all s h) c a x Hw1 He1 Hpc) as Hst. cbv zeta in Hst.
    set (ms := msg_entries (peer_log s a x)) in *. set (ms1 := msg_entries (peer_log (after_all s h) a x)) in *.
    set (ms2 := msg_entries (peer_log (after (after_all s h) c) a x)) in *.
    assert (Hkeep : ac_of ms2 = ac_of ms1 -> seen_of ms1 <= seen_of ms2 -> (seen_of ms2 = seen_of ms1 \/ mailed (after_all s h) c a x (seen_of ms2)) ->
      (ac_of ms2 = ac_of ms /\ newest (seen_of ms) s (h ++ [c]) a x (seen_of ms2)) \/
      exists h1 c1 h2 e, h ++ [c] = h1 ++ c1 :: h2 /\ ac_of ms2 = Some e /\ offered (after_all s h1) c1 a x (offer_of e) /\
        newest (me_date e) (after_all s (h1 ++ [c1])) h2 a x (seen_of ms2)).
    { intros Hac Hle Hd. destruct IH as [[I1 I2]|[h1 [c1 [h2 [e [-> [I1 [I2 I3]]]]]]]].
      - left. split; [congruence|]. eapply newest_snoc; eauto.
      - right. exists h1, c1, (h2 ++ [c]), e. split; [rewrite <- app_assoc; reflexivity|]. split; [congruence|]. split; [exact I2|].
        assert (Hst1 : after_all (after_all s (h1 ++ [c1])) h2 = after_all s (h1 ++ c1 :: h2)).
        { rewrite <- after_all_app, <- app_assoc. reflexivity. }
        eapply newest_snoc; [exact I3|exact Hle|rewrite Hst1; exact Hd|rewrite Hst1; exact Hproc]. }
    destruct Hst as [Hst|[[S1 [S2 S3]]|[e [S1 [S2 S3]]]]].
    + apply Hkeep; rewrite Hst; auto; lia.
    + apply Hkeep; [exact S1|lia|auto].
    + right. exists h, c, [], e. split; [reflexivity|]. split; [exact S1|]. split; [exact S3|]. rewrite S2.
      split; [lia|]. split; [auto|]. intros d [[|] [c' [h2 [i [H _]]]]]; discriminate.
Qed.

Theorem c10_since : forall s h a x v, reachable s -> peer_of s a x = Some v -> (forall c, In c h -> plain a c = true) ->
  exists v', peer_of (after_all s h) a x = Some v' /\
    ((pv_latest_ac v' = pv_latest_ac v /\ newest (pv_last_seen v) s h a (norm x) (pv_last_seen v')) \/
     exists h1 c h2 e, h = h1 ++ c :: h2 /\ pv_latest_ac v' = Some e /\ offered (after_all s h1) c a (norm x) (offer_of e) /\
       newest (me_date e) (after_all s (h1 ++ [c])) h2 a (norm x) (pv_last_seen v')).
Proof.
  intros s h a x v Hr Hv Hp. pose proof (reachable_WF s Hr) as Hw. destruct (peer_of_some s a x v Hw Hv) as [He ->].
  assert (He' : exists_acct (after_all s h) a) by (apply after_all_exists; auto; intros; apply plain_deletes; auto).
  pose proof (reachable_WF _ (reachable_after_all s h Hr)) as Hw'.
  eexists. split; [apply peer_of_spec; auto|]. rewrite !view_seen, !view_ac. apply since; auto.
Qed.

(** ** C12 *)
Lemma gossip_path_from a m nd ign s0 s ls s' d x : path s ls s' -> Forall (gossip_scope a m nd (Z.min d (clock (a_tick s0)))) ls ->
  isalnum a = true -> dated m d ->
  exists new, gossip_entries (peer_log s' a x) = new ++ gossip_entries (peer_log s a x) /\
    Forall (gossiped s0 (AIncoming a m ign nd) a x) new.
Proof.
  intros Hp HF Ha Hd. induction Hp as [|s l ls s' Hg Hp IH]; [exists []; auto|].
  inversion HF as [|? ? Hl HF']; subst. destruct (IH HF') as [new [H1 H2]].
  destruct (step_gossips s l a x Hg Ha) as [H|[[_ [->| ->]]|[id [d' [k [h [-> H]]]]]]].
  - exists new. rewrite H1, H. auto.
  - destruct Hl.
  - destruct Hl.
  - exists (new ++ [GossipEntry id d' k h]). rewrite H1, H, <- app_assoc. split; [reflexivity|]. apply Forall_app. split; [exact H2|].
    constructor; [|constructor]. destruct Hl as [_ [-> [-> [He [-> [dec [r [pahs [p [O1 [O2 [O3 [O4 [O5 O6]]]]]]]]]]]]]].
    destruct (gossip_full _ _ _ _ O4 O5) as [w [key [pref [W1 [W2 [W3 _]]]]]]. rewrite W3 in O6. injection O6 as ->.
    exists m, ign, d, dec, w, r, pref. cbn [ge_date ge_id ge_keydata]. auto 12.
Qed.
Lemma incoming_gossiped a m ign nd s x : WF s -> exists_acct s a ->
  exists new, gossip_entries (peer_log (after s (AIncoming a m ign nd)) a x) = new ++ gossip_entries (peer_log s a x) /\
    Forall (gossiped s (AIncoming a m ign nd) a x) new.
Proof.
  intros Hw He. destruct (answer_incoming s a m ign nd Hw He) as [-> _]. pose proof (exists_isalnum s a Hw He) as Ha.
  destruct (incoming_effect a m ign nd s Hw He) as [e Hl Hr|Hl Hr Hi Hm|d p s1 kh p' ls Hd Hp Hi Hl1 Hn Hpath HF Hr].
  - exists []. rewrite (logs_peer _ _ _ _ Hl). auto.
  - exists []. rewrite (logs_peer _ _ _ _ Hl). auto.
  - destruct (gossip_path_from a m nd ign s _ _ _ d x Hpath HF Ha Hd) as [new [H1 H2]]. exists new. rewrite H1. split; [|exact H2].
    f_equal. destruct (step_msg_log s1 a (sender_of m) (msg_id_text m) (Z.min d (clock (a_tick s))) (p_pref p) (p_keydata p) kh x) as [_ ->].
    rewrite (logs_peer s s1) by exact Hl1. reflexivity.
Qed.
Lemma plain_gossiped s c a x : WF s -> exists_acct s a -> plain a c = true ->
  exists new, gossip_entries (peer_log (after s c) a x) = new ++ gossip_entries (peer_log s a x) /\ Forall (gossiped s c a x) new.
Proof.
  intros Hw He Hp. destruct (incoming_dec a c) as [[m [ign [nd ->]]]|Hc]; [apply incoming_gossiped; auto|].
  destruct (after_gossips c a x s Hw (plain_deletes a c Hp) (exists_isalnum s a Hw He)) as [new [H1 H2]].
  destruct new as [|g new]; [exists []; auto|]. exfalso. inversion H2 as [|? ? [m [Hm _]]]; subst.
  destruct (plain_no_mails a c Hp) as [[n [m' [ign [nd ->]]]]|Hno].
  - cbn [mails_for] in Hm. destruct (text_eqb_spec n a) as [->|]; [|destruct Hm]. eapply Hc; reflexivity.
  - apply mails_for_of in Hm. rewrite Hno in Hm. exact Hm.
Qed.
Lemma gossiped_received s c a x g : gossiped s c a x g -> received s c a (ge_date g).
Proof. intros [m [ign [d [content [w [r [pref [-> [H1 [H2 [H3 H4]]]]]]]]]]]. exists m, ign, false, d. auto. Qed.

(** the newest gossip after a session, from the front *)
Lemma gossip_hist h : forall s a x, WF s -> exists_acct s a -> (forall c, In c h -> plain a c = true) ->
  let g := hd_error (gossip_entries (peer_log s a x)) in let g' := hd_error (gossip_entries (peer_log (after_all s h) a x)) in
  (g' = g \/ exists e, g' = Some e /\ gossiped_in s h a x e) /\
  (sorted s h a -> forall e, g = Some e -> (forall d, received_in s h a d -> ge_date e <= d) ->
     exists e', g' = Some e' /\ ge_date e <= ge_date e').
Proof.
  induction h as [|c h IH]; intros s a x Hw He Hp; cbv zeta.
  - rewrite after_all_nil. split; [auto|]. intros _ e -> _. exists e. split; [reflexivity|lia].
  - rewrite after_all_cons. assert (Hc : plain a c = true) by (apply Hp; simpl; auto).
    destruct (IH (after s c) a x) as [I1 I2].
    { apply WF_after; exact Hw. } { apply after_exists; auto. apply plain_deletes; exact Hc. } { intros; apply Hp; simpl; auto. }
    destruct (plain_gossiped s c a x Hw He Hc) as [new [H1 H2]].
    set (l := gossip_entries (peer_log s a x)) in *. rewrite H1 in *. split.
    + destruct I1 as [->|[e [-> [h1 [c1 [h2 [-> Hg]]]]]]].
      * destruct new as [|g new]; [left; reflexivity|]. right. inversion H2; subst. exists g. split; [reflexivity|]. exists [], c, h. auto.
      * right. exists e. split; [reflexivity|]. exists (c :: h1), c1, h2. rewrite after_all_cons. auto.
    + intros Hs e He' Hge.
      assert (Hs' : sorted (after s c) h a).
      { intros h1 c1 h2 c2 h3 d1 d2 -> R1 R2. apply (Hs (c :: h1) c1 h2 c2 h3 d1 d2); [reflexivity| |].
        - rewrite after_all_cons. exact R1.
        - cbn [app]. rewrite after_all_cons. exact R2. }
      destruct new as [|g new].
      * apply I2; [exact Hs'|exact He'|]. intros d [h1 [c1 [h2 [-> R]]]]. apply Hge. exists (c :: h1), c1, h2. rewrite after_all_cons. auto.
      * inversion H2 as [|? ? Hg _]; subst. apply gossiped_received in Hg.
        assert (Hle : ge_date e <= ge_date g) by (apply Hge; exists [], c, h; auto).
        destruct (I2 Hs' g eq_refl) as [e' [E1 E2]].
        { intros d [h1 [c1 [h2 [-> R]]]]. apply (Hs [] c h1 c1 h2 (ge_date g) d); [reflexivity|exact Hg|]. cbn [app]. rewrite after_all_cons. exact R. }
        exists e'. split; [exact E1|lia].
Qed.

Theorem c12_session : forall s h a x v, reachable s -> peer_of s a x = Some v -> (forall c, In c h -> plain a c = true) ->
  exists v', peer_of (after_all s h) a x = Some v' /\
    (pv_latest_gossip v' = pv_latest_gossip v \/
     exists g, pv_latest_gossip v' = Some g /\ gossiped_in s h a (norm x) g).
Proof.
  intros s h a x v Hr Hv Hp. pose proof (reachable_WF s Hr) as Hw. destruct (peer_of_some s a x v Hw Hv) as [He ->].
  assert (He' : exists_acct (after_all s h) a) by (apply after_all_exists; auto; intros; apply plain_deletes; auto).
  pose proof (reachable_WF _ (reachable_after_all s h Hr)) as Hw'.
  eexists. split; [apply peer_of_spec; auto|]. rewrite !view_gossip. apply gossip_hist; auto.
Qed.
Theorem c12_sorted : forall s h1 h2 a x v g, reachable s -> (forall c, In c (h1 ++ h2) -> plain a c = true) -> sorted s (h1 ++ h2) a ->
  peer_of s a x <> None ->
  (forall v0 g0 d, peer_of s a x = Some v0 -> pv_latest_gossip v0 = Some g0 -> received_in s (h1 ++ h2) a d -> ge_date g0 <= d) ->
  peer_of (after_all s h1) a x = Some v -> pv_latest_gossip v = Some g ->
  exists v' g', peer_of (after_all s (h1 ++ h2)) a x = Some v' /\ pv_latest_gossip v' = Some g' /\ ge_date g <= ge_date g'.
Proof.
  intros s h1 h2 a x v g Hr Hp Hs Hn Hge Hv Hg. destruct (peer_of s a x) as [v0|] eqn:Ev0; [clear Hn|congruence].
  pose proof (reachable_WF s Hr) as Hw. destruct (peer_of_some s a x v0 Hw Ev0) as [He Ev].
  assert (Hr1 : reachable (after_all s h1)) by (apply reachable_after_all; exact Hr).
  destruct (c12_session s h1 a x v0 Hr Ev0) as [v1 [V1 V2]]; [intros; apply Hp, in_or_app; auto|].
  assert (Some v1 = Some v) as [= ->] by congruence.
  assert (Hp2 : forall c, In c h2 -> plain a c = true) by (intros; apply Hp, in_or_app; auto).
  pose proof (reachable_WF _ Hr1) as Hw1. destruct (peer_of_some _ a x v Hw1 Hv) as [He1 Ev1].
  rewrite after_all_app.
  assert (He2 : exists_acct (after_all (after_all s h1) h2) a) by (apply after_all_exists; auto; intros; apply plain_deletes; auto).
  pose proof (reachable_WF _ (reachable_after_all _ h2 Hr1)) as Hw2.
  destruct (gossip_hist h2 (after_all s h1) a (norm x) Hw1 He1 Hp2) as [_ Hm].
  assert (Hs2 : sorted (after_all s h1) h2 a).
  { intros k1 c1 k2 c2 k3 d1 d2 -> R1 R2. apply (Hs (h1 ++ k1) c1 k2 c2 k3 d1 d2); [rewrite <- app_assoc; reflexivity| |].
    - rewrite after_all_app. exact R1.
    - rewrite <- app_assoc, after_all_app. exact R2. }
  destruct (Hm Hs2 g) as [g' [G1 G2]].
  - rewrite Ev1, view_gossip in Hg. exact Hg.
  - intros d [k1 [c1 [k2 [-> R]]]]. destruct V2 as [V2|[g1 [V2 [j1 [c2 [j2 [-> Hgs]]]]]]].
    + apply (Hge v0 g d); [reflexivity|congruence|]. exists (h1 ++ k1), c1, k2. split; [rewrite <- app_assoc; reflexivity|].
      rewrite after_all_app. exact R.
    + assert (g1 = g) by congruence. subst g1. apply gossiped_received in Hgs.
      apply (Hs j1 c2 (j2 ++ k1) c1 k2 (ge_date g) d); [repeat (rewrite <- app_assoc; cbn [app]); reflexivity|exact Hgs|].
      replace (j1 ++ c2 :: j2 ++ k1) with ((j1 ++ c2 :: j2) ++ k1) by (rewrite <- app_assoc; reflexivity).
      rewrite after_all_app. exact R.
  - eexists. exists g'. split; [apply peer_of_spec; auto|]. rewrite view_gossip. auto.
Qed.

End SeenProofs.
