(** Proofs for C10-C19. *)
From Verif Require Import Base PyStr Base64 Env Prog Chain Gpg Mime States Recommendation Account Cmdline Bot Fs Api Steps StepFacts Exec ApiScope Spec Obs PeerSpec Incoming PeerFacts PeerProofs.

Section PeerProofs2.
Context {E : Env}.
Open Scope Z_scope.

(** ** C10 *)
Theorem c10_seen_ge_ts : forall s a x v, reachable s -> peer_of s a x = Some v ->
  0 <= pv_ac_timestamp v <= pv_last_seen v.
Proof.
  intros s a x v Hr Hv. pose proof (reachable_WF s Hr) as Hw. destruct (peer_of_some s a x v Hw Hv) as [He ->].
  pose proof (wf_peer s Hw a (norm x)) as Hp. simpl. split; [apply peer_ok_nonneg|apply peer_ok_seen]; exact Hp.
Qed.

Lemma seen_of_cons e ms : seen_of (e :: ms) = me_date e. Proof. reflexivity. Qed.
(** what one mail does to last_seen *)
Lemma seen_step s c a x : WF s -> exists_acct s a -> plain a c = true ->
  let ms := msg_entries (peer_log s a x) in let ms' := msg_entries (peer_log (after s c) a x) in
  ms' = ms \/ exists e, ms' = e :: ms /\ mailed s c a x (me_date e) /\ ts_of ms <= me_date e /\
    (seen_of ms < me_date e \/ exists m ign nd, c = AIncoming a m ign nd /\ me_keydata e <> [] /\ carries m (me_keydata e) (me_pref e)).
Proof.
  intros Hw He Hp. cbv zeta. pose proof (exists_isalnum s a Hw He) as Ha.
  destruct (incoming_dec a c) as [[m [ign [nd ->]]]|Hc].
  - destruct (incoming_msgs a m ign nd s Hw He) as [Hother Hsend].
    destruct (text_eqb_spec x (sender_of m)) as [->|Hx]; [|left; auto].
    destruct Hsend as [[Hsame _]|[d [p [kh [Hd [Hpar Hms]]]]]]; [left; exact Hsame|]. rewrite Hms.
    assert (Hm : mailed s (AIncoming a m ign nd) a (sender_of m) (Z.min d (clock (a_tick s)))) by (exists m, ign, nd, d; auto).
    destruct (decide_msgs_cases (peer_log s a (sender_of m)) (msg_id_text m) (Z.min d (clock (a_tick s))) (p_pref p) (p_keydata p) kh)
      as [|pr k Hpr Hk Hne Hv Hts|Hk Hts Hseen]; [left; reflexivity| |]; right; eexists; (split; [reflexivity|]);
      (split; [exact Hm|]); (split; [exact Hts|]).
    + right. exists m, ign, nd. split; [reflexivity|]. simpl. split; [apply nonempty_true; exact Hne|].
      destruct (parse_carries m p Hpar) as [[Hf _]|[key [pr' [ex [-> [_ Hcr]]]]]]; [congruence|].
      simpl in Hpr, Hk. injection Hpr as <-. injection Hk as <-. exact Hcr.
    + left. exact Hseen.
  - left. destruct (after_msgs c a x s Hw (plain_deletes a c Hp) Ha) as [new [H1 H2]].
    destruct new as [|e new]; [exact H1|]. exfalso. inversion H2. eapply plain_origin; eauto.
Qed.

Theorem c10_step : forall s c a x v, reachable s -> peer_of s a x = Some v -> plain a c = true ->
  exists v', peer_of (after s c) a x = Some v' /\
    (pv_last_seen v' = pv_last_seen v \/ mailed s c a (norm x) (pv_last_seen v')) /\
    (pv_last_seen v' < pv_last_seen v ->
       exists m ign nd key pref, c = AIncoming a m ign nd /\ sender_of m = norm x /\ key <> [] /\ carries m key pref /\
         pv_ac_timestamp v <= pv_last_seen v').
Proof.
  intros s c a x v Hr Hv Hp. pose proof (reachable_WF s Hr) as Hw. destruct (peer_of_some s a x v Hw Hv) as [He ->].
  assert (He' : exists_acct (after s c) a) by (apply after_exists; auto; apply plain_deletes; exact Hp).
  eexists. split; [apply peer_of_spec; auto; apply WF_after; exact Hw|]. rewrite !view_seen, view_ts.
  destruct (seen_step s c a (norm x) Hw He Hp) as [->|[e [-> [Hm [Hts Hor]]]]].
  - split; [left; reflexivity|lia].
  - rewrite !seen_of_cons. split; [right; exact Hm|]. intros Hlt.
    destruct Hor as [Hor|[m [ign [nd [-> [Hne Hc]]]]]]; [lia|].
    destruct Hm as [m' [ign' [nd' [d0 [[= <- <- <-] [Hs _]]]]]].
    exists m, ign, nd, (me_keydata e), (me_pref e). auto.
Qed.

Definition seen_max (ms : list msg_entry) : Prop := forall e, In e ms -> me_date e <= seen_of ms.
Lemma seen_processed s c a x d i : WF s -> exists_acct s a -> plain a c = true -> seen_max (msg_entries (peer_log s a x)) ->
  mailed s c a x d -> answer s c = Ok (OIncoming (Some i)) ->
  seen_of (msg_entries (peer_log s a x)) <= d ->
  d <= seen_of (msg_entries (peer_log (after s c) a x)).
Proof.
  intros Hw He Hp HJ [m [ign [nd [d0 [-> [<- [Hd ->]]]]]]] Hans Hle.
  destruct (incoming_msgs a m ign nd s Hw He) as [_ [[_ Hno]|[d1 [p [kh [Hd1 [Hpar Hms]]]]]]]; [destruct (Hno i Hans)|].
  unfold dated in *. rewrite Hd in Hd1. injection Hd1 as <-. rewrite Hms. clear Hms.
  set (l := peer_log s a (sender_of m)) in *. set (dt := Z.min d0 _) in *.
  unfold decide_msgs, msg_decide. destruct (Z.ltb_spec dt (autocrypt_timestamp l)) as [Hlt|Hge].
  { pose proof (peer_ok_seen l (wf_peer s Hw a _)). rewrite seen_of_log in *. lia. }
  cbv zeta. destruct (match get_message_entry l (msg_id_text m) with Some _ => _ | None => _ end) eqn:Edup.
  - destruct (get_message_entry l (msg_id_text m)) as [e|] eqn:Eg; [|discriminate].
    apply get_message_In in Eg. destruct Eg as [Hi _]. specialize (HJ e Hi).
    do 3 (apply andb_prop in Edup; destruct Edup as [Edup _]). apply Z.eqb_eq in Edup. lia.
  - destruct (nonempty _) eqn:En; cbn [negb].
    + destruct (parse_carries m p Hpar) as [[Hf _]|[key [pr [ex [-> [Hv _]]]]]].
      * rewrite Hf in En. discriminate.
      * unfold mk_msg_entry. cbn [p_pref]. rewrite Hv. unfold seen_of; simpl; lia.
    + destruct (Z.ltb_spec (last_seen l) dt) as [H|H]; [unfold seen_of; simpl; lia|]. rewrite seen_of_log in H. lia.
Qed.

Lemma in_order_tail s c h a x : in_order s (c :: h) a x -> in_order (after s c) h a x.
Proof.
  intros H h1 c1 h2 c2 h3 d1 d2 -> H1 H2. apply (H (c :: h1) c1 h2 c2 h3 d1 d2); [reflexivity| |].
  - rewrite after_all_cons. exact H1.
  - cbn [app]. rewrite after_all_cons. exact H2.
Qed.

Lemma c10_hist h : forall s a x, WF s -> exists_acct s a -> (forall c, In c h -> plain a c = true) ->
  let ms := msg_entries (peer_log s a x) in let ms' := msg_entries (peer_log (after_all s h) a x) in
  seen_max ms -> in_order s h a x -> (forall d, mailed_in s h a x d -> seen_of ms <= d) ->
  seen_of ms <= seen_of ms' /\ (seen_of ms' = seen_of ms \/ mailed_in s h a x (seen_of ms')) /\
  forall d, processed_in s h a x d -> d <= seen_of ms'.
Proof.
  induction h as [|c h IH]; intros s a x Hw He Hp; cbv zeta; intros HJ Hord Hge.
  - rewrite after_all_nil. split; [lia|]. split; [auto|]. intros d [[|] [c [h2 [i [H _]]]]]; discriminate.
  - rewrite after_all_cons. assert (Hc : plain a c = true) by (apply Hp; simpl; auto).
    set (ms := msg_entries (peer_log s a x)) in *. set (ms1 := msg_entries (peer_log (after s c) a x)).
    assert (Hstep : seen_of ms <= seen_of ms1 /\ (seen_of ms1 = seen_of ms \/ mailed s c a x (seen_of ms1)) /\ seen_max ms1).
    { unfold ms1. destruct (seen_step s c a x Hw He Hc) as [->|[e [-> [Hm _]]]]; fold ms.
      - split; [lia|]. auto.
      - assert (H : seen_of ms <= me_date e) by (apply Hge; exists [], c, h; auto).
        rewrite !seen_of_cons. split; [exact H|]. split; [right; exact Hm|].
        intros e' [<-|Hi]; rewrite seen_of_cons; [lia|]. specialize (HJ e' Hi). lia. }
    destruct Hstep as [S1 [S2 S3]].
    destruct (IH (after s c) a x) as [T1 [T2 T3]].
    + apply WF_after; exact Hw.
    + apply after_exists; auto. apply plain_deletes; exact Hc.
    + intros; apply Hp; simpl; auto.
    + exact S3.
    + eapply in_order_tail; exact Hord.
    + intros d [h1 [c2 [h2 [-> Hm]]]]. fold ms1.
      destruct S2 as [->|S2].
      * apply Hge. exists (c :: h1), c2, h2. rewrite after_all_cons. auto.
      * apply (Hord [] c h1 c2 h2 (seen_of ms1) d); [reflexivity|exact S2|]. cbn [app]. rewrite after_all_cons. exact Hm.
    + fold ms1 in T1, T2. split; [lia|]. split.
      * destruct T2 as [->|[h1 [c2 [h2 [-> Hm]]]]].
        -- destruct S2 as [S2|S2]; [auto|]. right. exists [], c, h. auto.
        -- right. exists (c :: h1), c2, h2. rewrite after_all_cons. auto.
      * intros d [h1 [c2 [h2 [i [Hh [Hm Hans]]]]]]. destruct h1 as [|c1 h1]; cbn [app] in Hh; injection Hh as <- ->.
        -- rewrite after_all_nil in *. etransitivity; [|exact T1]. eapply seen_processed; eauto.
           apply Hge. exists [], c, h2. auto.
        -- rewrite after_all_cons in *. apply T3. exists h1, c2, h2, i. auto.
Qed.

Lemma no_ac_seen_max l : peer_ok l -> ac_of (msg_entries l) = None -> seen_max (msg_entries l).
Proof.
  induction 1 as [|t id d p kd kh l H IH H1 H2 H3|t id d l H IH H1 H2|t id d kd kh l H IH H1 H2];
    cbn [msg_entries bl_entry]; intros Hn.
  - intros e [].
  - unfold ac_of in Hn. cbn [find me_keydata] in Hn. rewrite H2 in Hn. discriminate.
  - intros e [<-|Hi]; unfold seen_of; cbn [hd_error me_date]; [lia|]. specialize (IH Hn e Hi). rewrite seen_of_log in H2. lia.
  - exact (IH Hn).
Qed.

Theorem c10_ordered : forall s h a x v, reachable s -> peer_of s a x = Some v -> pv_latest_ac v = None ->
  (forall c, In c h -> plain a c = true) -> in_order s h a (norm x) ->
  (forall d, mailed_in s h a (norm x) d -> pv_last_seen v <= d) ->
  exists v', peer_of (after_all s h) a x = Some v' /\ pv_last_seen v <= pv_last_seen v' /\
    (pv_last_seen v' = pv_last_seen v \/ mailed_in s h a (norm x) (pv_last_seen v')) /\
    forall d, processed_in s h a (norm x) d -> d <= pv_last_seen v'.
Proof.
  intros s h a x v Hr Hv Hn Hp Hord Hge. pose proof (reachable_WF s Hr) as Hw.
  destruct (peer_of_some s a x v Hw Hv) as [He ->].
  assert (He' : exists_acct (after_all s h) a) by (apply after_all_exists; auto; intros; apply plain_deletes; auto).
  pose proof (reachable_WF _ (reachable_after_all s h Hr)) as Hw'.
  eexists. split; [apply peer_of_spec; auto|]. rewrite !view_seen in *.
  apply c10_hist; auto. apply no_ac_seen_max; [apply wf_peer; exact Hw|exact Hn].
Qed.

(** ** C11 *)
Lemma no_mail_msgs s c a x : WF s -> exists_acct s a -> deletes a c = false -> imports a c = false ->
  (forall m, In m (mails_for a c) -> sender_of m <> x) ->
  msg_entries (peer_log (after s c) a x) = msg_entries (peer_log s a x).
Proof.
  intros Hw He Hd Hi Hm. destruct (after_msgs c a x s Hw Hd (exists_isalnum s a Hw He)) as [new [H1 H2]].
  destruct new as [|e new]; [exact H1|]. exfalso. inversion H2 as [|? ? Ho]; subst.
  destruct Ho as [[m [H3 [H4 _]]]|[[addr [key [-> _]]]|[addr [key [pr [-> _]]]]]].
  - exact (Hm m H3 H4).
  - simpl in Hi. rewrite text_eqb_refl in Hi. discriminate.
  - simpl in Hi. rewrite text_eqb_refl in Hi. discriminate.
Qed.
Lemma view_direct_msgs ch l l' : msg_entries l' = msg_entries l -> has_direct_key l = true ->
  but_gossip (view_of ch l') = but_gossip (view_of ch l).
Proof.
  intros H Hd. unfold but_gossip, view_of. cbn [pv_addr pv_last_seen pv_ac_timestamp pv_keyhandle pv_keydata pv_pref pv_direct pv_entry pv_latest_ac].
  assert (Hac : latest_ac_entry l' = latest_ac_entry l) by (unfold latest_ac_entry; rewrite H; reflexivity).
  assert (Hdk : has_direct_key l' = has_direct_key l) by (unfold has_direct_key; rewrite Hac; reflexivity).
  assert (Hen : entry_for_encryption l' = entry_for_encryption l) by (unfold entry_for_encryption; rewrite Hdk, Hd, Hac; reflexivity).
  unfold last_seen, latest_msg_entry, autocrypt_timestamp, public_keyhandle, public_keydata, peer_prefer_encrypt.
  rewrite H, Hac, Hdk, Hen. reflexivity.
Qed.
Lemma view_msgs ch l l' : msg_entries l' = msg_entries l ->
  pv_last_seen (view_of ch l') = pv_last_seen (view_of ch l) /\
  pv_ac_timestamp (view_of ch l') = pv_ac_timestamp (view_of ch l) /\
  pv_direct (view_of ch l') = pv_direct (view_of ch l) /\
  pv_latest_ac (view_of ch l') = pv_latest_ac (view_of ch l).
Proof.
  intros H. cbn. unfold last_seen, latest_msg_entry, autocrypt_timestamp, has_direct_key, latest_ac_entry. rewrite H. auto.
Qed.

Theorem c11 : forall s c a x v, reachable s -> peer_of s a x = Some v ->
  deletes a c = false -> imports a c = false ->
  (forall m, In m (mails_for a c) -> sender_of m <> norm x) ->
  exists v', peer_of (after s c) a x = Some v' /\
    (pv_direct v = true -> but_gossip v' = but_gossip v) /\
    pv_last_seen v' = pv_last_seen v /\ pv_ac_timestamp v' = pv_ac_timestamp v /\
    pv_direct v' = pv_direct v /\ pv_latest_ac v' = pv_latest_ac v.
Proof.
  intros s c a x v Hr Hv Hd Hi Hm. pose proof (reachable_WF s Hr) as Hw. destruct (peer_of_some s a x v Hw Hv) as [He ->].
  assert (He' : exists_acct (after s c) a) by (apply after_exists; auto).
  eexists. split; [apply peer_of_spec; auto; apply WF_after; exact Hw|].
  pose proof (no_mail_msgs s c a (norm x) Hw He Hd Hi Hm) as H.
  split; [intros Hdir; apply view_direct_msgs; [exact H|exact Hdir]|]. apply view_msgs; exact H.
Qed.

End PeerProofs2.
