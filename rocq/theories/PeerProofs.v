(** Proofs for C08-C19. *)
From Verif Require Import Base PyStr Base64 Env Prog Chain Gpg Mime States Recommendation Account Cmdline Bot Fs Api Steps StepFacts Exec ApiScope Spec Obs PeerSpec Incoming PeerFacts.
From Coq Require Import Permutation Sorting.Sorted.

Section PeerProofs.
Context {E : Env}.
Open Scope Z_scope.

Lemma find_app {A} (f : A -> bool) l1 l2 : find f (l1 ++ l2) = match find f l1 with Some x => Some x | None => find f l2 end.
Proof. induction l1 as [|y l1 IH]; simpl; [reflexivity|]. destruct (f y); auto. Qed.
Lemma plain_deletes a c : plain a c = true -> deletes a c = false.
Proof.
  destruct c; try reflexivity; unfold plain; cbn [mails_of nonempty imports negb andb]; intros H;
    apply negb_true_iff in H; exact H.
Qed.
Lemma mails_for_of a c m : In m (mails_for a c) -> In m (mails_of c).
Proof.
  destruct c; simpl; auto.
  - destruct (text_eqb name a); simpl; tauto.
  - match goal with |- context [match ?o with Some _ => _ | None => _ end] => destruct o; auto end. destruct (text_eqb _ a); simpl; tauto.
Qed.
Lemma plain_no_mails a c : plain a c = true -> (exists n m ign nd, c = AIncoming n m ign nd) \/ mails_of c = [].
Proof.
  destruct c; auto; try (intros H; right; unfold plain in H; apply andb_prop in H; destruct H as [H _];
    apply andb_prop in H; destruct H as [H _]; match type of H with negb (nonempty ?l) = true => destruct l; [reflexivity|discriminate] end).
  left. eauto.
Qed.
Lemma plain_origin a c x e : plain a c = true -> (forall m ign nd, c <> AIncoming a m ign nd) -> ~ origin c a x e.
Proof.
  intros Hp Hc [[m [Hm _]]|[[addr [key [-> _]]]|[addr [key [pr [-> _]]]]]].
  - destruct (plain_no_mails a c Hp) as [[n [m' [ign [nd ->]]]]|H].
    + simpl in Hm. destruct (text_eqb_spec n a) as [->|]; [|destruct Hm]. eapply Hc; reflexivity.
    + apply mails_for_of in Hm. rewrite H in Hm. exact Hm.
  - simpl in Hp. rewrite text_eqb_refl in Hp. discriminate.
  - simpl in Hp. rewrite text_eqb_refl in Hp. discriminate.
Qed.
Lemma incoming_dec a c : (exists m ign nd, c = AIncoming a m ign nd) \/ (forall m ign nd, c <> AIncoming a m ign nd).
Proof.
  destruct c; try (right; congruence). destruct (text_eqb_spec name a) as [->|]; [left; eauto|right; congruence].
Qed.

(** the newest key after a plain call *)
Lemma c08_step s c a x : WF s -> exists_acct s a -> plain a c = true ->
  let ms := msg_entries (peer_log s a x) in let ms' := msg_entries (peer_log (after s c) a x) in
  (ac_of ms' = ac_of ms \/ exists e, ac_of ms' = Some e /\ offered s c a x (offer_of e)) /\
  ts_of ms <= ts_of ms' /\
  forall o i, offered s c a x o -> answer s c = Ok (OIncoming (Some i)) -> of_date o <= ts_of ms' /\ ac_of ms' <> None.
Proof.
  intros Hw He Hp. cbv zeta. pose proof (exists_isalnum s a Hw He) as Ha.
  pose proof (after_ts c a x s Hw (plain_deletes a c Hp) Ha) as Hts. rewrite !ts_of_log in Hts.
  destruct (incoming_dec a c) as [[m [ign [nd ->]]]|Hc].
  - destruct (incoming_msgs a m ign nd s Hw He) as [Hother Hsend].
    destruct (text_eqb_spec x (sender_of m)) as [->|Hx].
    + destruct Hsend as [[Hsame Hno]|[d [p [kh [Hd [Hpar Hms]]]]]].
      * split; [left; rewrite Hsame; reflexivity|]. split; [exact Hts|]. intros o i _ Hans. destruct (Hno i Hans).
      * rewrite Hms in *. pose proof (wf_peer s Hw a (sender_of m)) as Hok. split; [|split; [exact Hts|]].
        -- destruct (decide_ac (peer_log s a (sender_of m)) (msg_id_text m) (Z.min d (clock (a_tick s))) (p_pref p) (p_keydata p) kh)
             as [H|[pr [k [Hpr [Hk [Hne [Hv [Hge H]]]]]]]]; [left; exact H|]. right.
           eexists. split; [exact H|]. exists m, ign, nd, d. split; [reflexivity|]. split; [reflexivity|]. split; [exact Hd|].
           split; [reflexivity|]. split; [reflexivity|]. pose proof (peer_ok_nonneg _ Hok).
           split; [simpl; lia|]. split; [apply nonempty_true; exact Hne|].
           destruct (parse_carries m p Hpar) as [[Hf _]|[key [pr' [ex [-> [_ Hc]]]]]]; [congruence|].
           simpl in Hpr, Hk. injection Hpr as <-. injection Hk as <-. exact Hc.
        -- intros o i [m' [ign' [nd' [d' [[= <- <- <-] [_ [Hd' [Hdate [_ [Hpos [Hne Hcar]]]]]]]]]]] _.
           unfold dated in *. rewrite Hd in Hd'. injection Hd' as <-. rewrite Hdate.
           apply carries_parse in Hcar. destruct Hcar as [Hv [ex Hcar]]. rewrite Hpar in Hcar. injection Hcar as ->. simpl.
           rewrite Hdate in Hpos. apply nonempty_true in Hne.
           split; [apply decide_ts_ge | apply decide_ac_some]; auto.
    + rewrite (Hother x Hx) in *. split; [left; reflexivity|]. split; [lia|].
      intros o i [m' [ign' [nd' [d' [[= <- <- <-] [Hs _]]]]]] _. congruence.
  - destruct (after_msgs c a x s Hw (plain_deletes a c Hp) Ha) as [new [H1 H2]].
    destruct new as [|e new].
    + simpl in H1. rewrite H1 in *. split; [left; reflexivity|]. split; [lia|].
      intros o i [m' [ign' [nd' [d' [-> _]]]]] _. exfalso. eapply Hc; reflexivity.
    + exfalso. inversion H2. eapply plain_origin; eauto.
Qed.

Lemma c08_history s h a x : WF s -> exists_acct s a -> (forall c, In c h -> plain a c = true) ->
  let ms := msg_entries (peer_log s a x) in let ms' := msg_entries (peer_log (after_all s h) a x) in
  (ac_of ms' = ac_of ms \/ exists e, ac_of ms' = Some e /\ offered_in s h a x (offer_of e)) /\
  ts_of ms <= ts_of ms' /\
  forall o, taken_in s h a x o -> of_date o <= ts_of ms' /\ ac_of ms' <> None.
Proof.
  revert s; induction h as [|c h IH]; intros s Hw He Hp; cbv zeta.
  - rewrite after_all_nil. split; [auto|]. split; [lia|]. intros o [[|] [c [h2 [i [H _]]]]]; discriminate.
  - rewrite after_all_cons. assert (Hc : plain a c = true) by (apply Hp; simpl; auto).
    destruct (c08_step s c a x Hw He Hc) as [H1 [H2 H3]].
    destruct (IH (after s c)) as [H4 [H5 H6]].
    { apply WF_after; exact Hw. } { apply after_exists; auto. apply plain_deletes; exact Hc. } { intros; apply Hp; simpl; auto. }
    split; [|split; [lia|]].
    + destruct H4 as [H4|[e [H4 [h1 [c' [h2 [-> Ho]]]]]]].
      * rewrite H4. destruct H1 as [H1|[e [H1 Ho]]]; [auto|]. right. exists e. split; [exact H1|].
        exists [], c, h. split; [reflexivity|exact Ho].
      * right. exists e. split; [exact H4|]. exists (c :: h1), c', h2. split; [reflexivity|]. rewrite after_all_cons. exact Ho.
    + intros o [h1 [c' [h2 [i [Hh [Ho Hans]]]]]]. destruct h1 as [|c1 h1]; simpl in Hh; injection Hh as -> ->.
      * rewrite after_all_nil in *. destruct (H3 o i Ho Hans) as [H7 H8]. split; [lia|].
        destruct H4 as [->|[e [-> _]]]; [exact H8|discriminate].
      * apply H6. exists h1, c', h2, i. rewrite after_all_cons in *. auto.
Qed.

Theorem c08 : forall s h a x v, reachable s -> peer_of s a x = Some v ->
  (forall c, In c h -> plain a c = true) ->
  exists v', peer_of (after_all s h) a x = Some v' /\
    pv_ac_timestamp v' = match pv_latest_ac v' with Some e => me_date e | None => 0 end /\
    (pv_latest_ac v' = pv_latest_ac v \/
     exists e, pv_latest_ac v' = Some e /\ offered_in s h a (norm x) (offer_of e)) /\
    pv_ac_timestamp v <= pv_ac_timestamp v' /\
    forall o, taken_in s h a (norm x) o -> of_date o <= pv_ac_timestamp v' /\ pv_latest_ac v' <> None.
Proof.
  intros s h a x v Hr Hv Hp. pose proof (reachable_WF s Hr) as Hw.
  destruct (peer_of_some s a x v Hw Hv) as [He ->].
  assert (He' : exists_acct (after_all s h) a) by (apply after_all_exists; auto; intros; apply plain_deletes; auto).
  pose proof (reachable_WF _ (reachable_after_all s h Hr)) as Hw'.
  eexists. split; [apply peer_of_spec; auto|]. split; [reflexivity|].
  rewrite !view_ac, !view_ts. apply c08_history; auto.
Qed.

Theorem c08_fresh : forall s h a x v, reachable s -> peer_of s a x = Some v -> pv_latest_ac v = None ->
  (forall c, In c h -> plain a c = true) ->
  exists v', peer_of (after_all s h) a x = Some v' /\
    match pv_latest_ac v' with
    | None => pv_ac_timestamp v' = 0 /\ pv_direct v' = false /\ forall o, ~ taken_in s h a (norm x) o
    | Some e => pv_ac_timestamp v' = me_date e /\ offered_in s h a (norm x) (offer_of e) /\
                forall o, taken_in s h a (norm x) o -> of_date o <= me_date e
    end.
Proof.
  intros s h a x v Hr Hv Hn Hp. destruct (c08 s h a x v Hr Hv Hp) as [v' [H1 [H2 [H3 [H4 H5]]]]].
  exists v'. split; [exact H1|]. rewrite Hn in H3. destruct (pv_latest_ac v') as [e|] eqn:Ee.
  - split; [exact H2|]. split.
    + destruct H3 as [H3|[e' [[= <-] H3]]]; [discriminate|exact H3].
    + intros o Ho. rewrite <- H2. apply H5. exact Ho.
  - split; [exact H2|]. split.
    + apply peer_of_some in H1; [|apply reachable_WF, reachable_after_all; exact Hr]. destruct H1 as [_ ->].
      simpl in Ee |- *. unfold has_direct_key. rewrite Ee. reflexivity.
    + intros o Ho. destruct (H5 o Ho) as [_ H6]. congruence.
Qed.

(** *** Order of arrival *)
Lemma session_answer s h1 c h2 : In (answer (after_all s h1) c) (snd (session (h1 ++ c :: h2) s)).
Proof.
  revert s; induction h1 as [|c1 h1 IH]; intros s; simpl.
  - unfold answer, after_all; simpl. destruct (arun (exec c) s) as [s1 r]. destruct (session h2 s1). simpl. auto.
  - rewrite after_all_cons. specialize (IH (after s c1)). unfold after in *. destruct (arun (exec c1) s) as [s1 r].
    simpl in *. destruct (session (h1 ++ c :: h2) s1). simpl in *. auto.
Qed.

(** the mails among calls to process_incoming of account a *)
Definition good_mail (x : text) (m : msg) (o : offer) : Prop :=
  sender_of m = x /\ (exists d, dated m d /\ of_date o = d /\ forall i, d <= clock i) /\ of_id o = msg_id_text m /\
  0 <= of_date o /\ of_key o <> [] /\ carries m (of_key o) (of_pref o).

Theorem c08_order : forall s h1 h2 a x v, reachable s -> peer_of s a x = Some v -> pv_latest_ac v = None ->
  Permutation h1 h2 -> (forall c, In c h1 -> exists m, mail_call a m c) ->
  all_processed s h1 -> all_processed s h2 ->
  (* all dates are in the past *)
  (forall m c d, In c h1 -> mail_call a m c -> dated m d -> forall i, d <= clock i) ->
  (* mails of the peer with a key have different dates *)
  (forall m1 m2 c1 c2 d k1 p1 k2 p2, In c1 h1 -> In c2 h1 -> mail_call a m1 c1 -> mail_call a m2 c2 ->
     sender_of m1 = norm x -> sender_of m2 = norm x -> carries m1 k1 p1 -> carries m2 k2 p2 ->
     dated m1 d -> dated m2 d -> m1 = m2) ->
  exists v1 v2, peer_of (after_all s h1) a x = Some v1 /\ peer_of (after_all s h2) a x = Some v2 /\
    option_map offer_of (pv_latest_ac v1) = option_map offer_of (pv_latest_ac v2) /\
    pv_ac_timestamp v1 = pv_ac_timestamp v2.
Proof.
  intros s h1 h2 a x v Hr Hv Hn HP Hm Hok1 Hok2 Hpast Hdist.
  assert (Hm2 : forall c, In c h2 -> exists m, mail_call a m c).
  { intros c Hc. apply Hm. eapply Permutation_in; [apply Permutation_sym; exact HP|exact Hc]. }
  assert (Hpl : forall h, (forall c, In c h -> exists m, mail_call a m c) -> forall c, In c h -> plain a c = true).
  { intros h H c Hc. destruct (H c Hc) as [m [nd ->]]. reflexivity. }
  (* what was offered or taken does not depend on the order *)
  set (O := fun o => exists m c, In c h1 /\ mail_call a m c /\ good_mail (norm x) m o).
  assert (Hoff : forall h, (forall c, In c h <-> In c h1) -> forall o, offered_in s h a (norm x) o -> O o).
  { intros h Hh o [k1 [c [k2 [-> [m [ign [nd [d [-> [Hs [Hd [Hdate [Hid [Hpos [Hne Hcar]]]]]]]]]]]]]]].
    assert (Hin : In (AIncoming a m ign nd) h1) by (apply Hh, in_app_iff; simpl; auto).
    destruct (Hm _ Hin) as [m' [nd' [= <- -> <-]]].
    exists m, (AIncoming a m false nd). split; [exact Hin|]. split; [exists nd; reflexivity|].
    assert (Hp : forall i, d <= clock i) by (eapply Hpast; eauto; exists nd; reflexivity).
    split; [exact Hs|]. split; [exists d; split; [exact Hd|]; split; [|exact Hp]; rewrite Hdate; specialize (Hp (a_tick (after_all s k1))); lia|]. auto. }
  assert (Htak : forall h, (forall c, In c h <-> In c h1) -> all_processed s h -> forall o, O o -> taken_in s h a (norm x) o).
  { intros h Hh Hok o [m [c [Hin [[nd ->] [Hs [[d [Hd [Hdate Hp]]] [Hid [Hpos [Hne Hcar]]]]]]]]].
    apply Hh in Hin. apply in_split in Hin. destruct Hin as [k1 [k2 ->]].
    assert (Hans : exists i, answer (after_all s k1) (AIncoming a m false nd) = Ok (OIncoming (Some i))).
    { unfold all_processed in Hok. rewrite Forall_forall in Hok. apply Hok, session_answer. }
    destruct Hans as [i Hans]. exists k1, (AIncoming a m false nd), k2, i. split; [reflexivity|]. split; [|exact Hans].
    exists m, false, nd, d. split; [reflexivity|]. split; [exact Hs|]. split; [exact Hd|].
    split; [rewrite Hdate; specialize (Hp (a_tick (after_all s k1))); lia|]. auto. }
  assert (Huniq : forall o o', O o -> O o' -> of_date o = of_date o' -> o = o').
  { intros [d1 p1 k1 i1] [d2 p2 k2 i2] [m1 [c1 [Hi1 [Hc1 [Hs1 [[z1 [Hd1 [He1 _]]] [Hid1 [_ [_ Hcar1]]]]]]]]]
           [m2 [c2 [Hi2 [Hc2 [Hs2 [[z2 [Hd2 [He2 _]]] [Hid2 [_ [_ Hcar2]]]]]]]]] Heq. simpl in *. subst z1 z2 d2.
    assert (m1 = m2) by exact (Hdist m1 m2 c1 c2 d1 _ _ _ _ Hi1 Hi2 Hc1 Hc2 Hs1 Hs2 Hcar1 Hcar2 Hd1 Hd2). subst m2.
    destruct (carries_unique _ _ _ _ _ Hcar1 Hcar2) as [-> ->]. congruence. }
  assert (I1 : forall c, In c h1 <-> In c h1) by tauto.
  assert (I2 : forall c, In c h2 <-> In c h1).
  { intros c. split; intros H; [apply Permutation_in with (l := h2); [apply Permutation_sym; exact HP|exact H]|apply Permutation_in with (l := h1); assumption]. }
  destruct (c08_fresh s h1 a x v Hr Hv Hn (Hpl _ Hm)) as [v1 [H1 Hv1]].
  destruct (c08_fresh s h2 a x v Hr Hv Hn (Hpl _ Hm2)) as [v2 [H2 Hv2]].
  exists v1, v2. split; [exact H1|]. split; [exact H2|].
  destruct (pv_latest_ac v1) as [e1|], (pv_latest_ac v2) as [e2|]; simpl.
  - destruct Hv1 as [T1 [O1 M1]], Hv2 as [T2 [O2 M2]].
    apply (Hoff h1 I1) in O1. apply (Hoff h2 I2) in O2.
    assert (D1 : me_date e2 <= me_date e1) by (apply (M1 (offer_of e2)); apply Htak; auto).
    assert (D2 : me_date e1 <= me_date e2) by (apply (M2 (offer_of e1)); apply Htak; auto).
    split; [f_equal; apply Huniq; auto; simpl; lia|]. rewrite T1, T2. lia.
  - exfalso. destruct Hv1 as [_ [O1 _]], Hv2 as [_ [_ M2]]. apply (M2 (offer_of e1)). apply Htak; auto. exact (Hoff h1 I1 _ O1).
  - exfalso. destruct Hv2 as [_ [O2 _]], Hv1 as [_ [_ M1]]. apply (M1 (offer_of e2)). apply Htak; auto. exact (Hoff h2 I2 _ O2).
  - destruct Hv1 as [T1 _], Hv2 as [T2 _]. split; [reflexivity|congruence].
Qed.

(** *** Any call *)
Theorem c08_any_call : forall s c a x v, reachable s -> peer_of s a x = Some v -> deletes a c = false ->
  exists v', peer_of (after s c) a x = Some v' /\
    (pv_latest_ac v' = pv_latest_ac v \/
     exists e, pv_latest_ac v' = Some e /\ pv_ac_timestamp v <= me_date e /\
       ((exists m d, In m (mails_for a c) /\ sender_of m = norm x /\ dated m d /\ me_date e <= d /\
           carries m (me_keydata e) (me_pref e)) \/
        exists addr key, c = AImport a addr key (me_pref e))).
Proof.
  intros s c a x v Hr Hv Hd. pose proof (reachable_WF s Hr) as Hw. destruct (peer_of_some s a x v Hw Hv) as [He ->].
  pose proof (exists_isalnum s a Hw He) as Ha.
  assert (He' : exists_acct (after s c) a) by (apply after_exists; auto).
  eexists. split; [apply peer_of_spec; auto; apply WF_after; exact Hw|]. rewrite !view_ac, !view_ts.
  destruct (after_msgs c a (norm x) s Hw Hd Ha) as [new [H1 H2]].
  pose proof (after_ts c a (norm x) s Hw Hd Ha) as Hts. rewrite !ts_of_log in Hts.
  rewrite H1 in *. clear H1. unfold ts_of at 2 in Hts.
  destruct (ac_of (new ++ msg_entries (peer_log s a (norm x)))) as [e|] eqn:Ee.
  - unfold ac_of in Ee. rewrite find_app in Ee.
    destruct (find (fun e => nonempty (me_keydata e)) new) as [e'|] eqn:Ef; [|left; symmetry; exact Ee].
    injection Ee as ->. right. exists e. split; [reflexivity|]. split; [exact Hts|].
    apply find_some in Ef. destruct Ef as [Hi Hk]. apply nonempty_true in Hk. rewrite Forall_forall in H2.
    destruct (H2 e Hi) as [[m [Hm [Hs [_ [[d [Hd1 Hd2]] Hc]]]]]|[[addr [key [-> _]]]|[addr [key [pr [_ [_ H]]]]]]].
    + left. exists m, d. exact (conj Hm (conj Hs (conj Hd1 (conj Hd2 (Hc Hk))))).
    + right. exists addr, key. reflexivity.
    + congruence.
  - left. unfold ac_of in Ee. rewrite find_app in Ee. destruct (find _ new); [discriminate|]. symmetry; exact Ee.
Qed.

(** ** C09 *)
Theorem c09 : forall s c a x v, reachable s -> peer_of s a x = Some v -> deletes a c = false ->
  exists v', peer_of (after s c) a x = Some v' /\ pv_ac_timestamp v <= pv_ac_timestamp v'.
Proof.
  intros s c a x v Hr Hv Hd. pose proof (reachable_WF s Hr) as Hw. destruct (peer_of_some s a x v Hw Hv) as [He ->].
  pose proof (exists_isalnum s a Hw He) as Ha.
  assert (He' : exists_acct (after s c) a) by (apply after_exists; auto).
  eexists. split; [apply peer_of_spec; auto; apply WF_after; exact Hw|]. rewrite !view_ts.
  pose proof (after_ts c a (norm x) s Hw Hd Ha) as Hts. exact Hts.
Qed.

End PeerProofs.
