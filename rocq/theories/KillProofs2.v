(** A call whose process was killed, made again, for mails with gossip (C98). *)
From Verif Require Import Base PyStr Base64 Env Prog Chain Gpg Mime States Recommendation Account Cmdline Bot Fs Api Steps StepFacts Exec ApiScope Spec Obs PeerSpec Incoming
  PeerFacts PeerProofs PeerProofs2 PeerProofs3 PeerProofs4 Quiet HeaderSpec HeaderProofs OutSpec OutProofs OutProofs2 GossipProofs TwiceProofs KillSpec KillProofs.

Section Kill2.
Context {E : Env}.
Open Scope Z_scope.

Definition added (o : option entry) (t : Z) (l : list block) : list block :=
  match o with Some e => Block t e :: l | None => l end.

(** ** Two decisions about one chain, and a log between the log before and the log after them *)
Lemma suffix_cons {A} (x : A) l k more : more ++ k = x :: l -> k = x :: l \/ exists more', more' ++ k = l.
Proof. destruct more as [|y more]; cbn [app]; intros H; [left; exact H|right]. injection H as _ H. exists more. exact H. Qed.
Lemma between_same {A} (l k : list A) a b : k = a ++ l -> b ++ k = l -> k = l.
Proof.
  intros -> H. assert (length (b ++ a ++ l) = length l) by (rewrite H; reflexivity). rewrite !app_length in H0.
  destruct a; [reflexivity|cbn [length] in H0; lia].
Qed.

Section Sandwich.
Variables dM dG : list block -> result (option entry).
Hypothesis M_again : forall l o t, dM l = Ok o -> dM (added o t l) = Ok None.
Hypothesis G_again : forall l o t, dG l = Ok o -> dG (added o t l) = Ok None.
Hypothesis M_ext : forall l l', map bl_entry l = map bl_entry l' -> dM l = dM l'.
Hypothesis G_ext : forall l l', map bl_entry l = map bl_entry l' -> dG l = dG l'.
Hypothesis M_G : forall l e t l', dG l = Ok (Some e) -> dM (Block t e :: l') = dM l'.

Lemma between_two l o1 t1 o2 t2 k o3 t3 o4 t4 x y :
  dM l = Ok o1 -> dG (added o1 t1 l) = Ok o2 ->
  k = x ++ l -> added o2 t2 (added o1 t1 l) = y ++ k ->
  dM k = Ok o3 -> dG (added o3 t3 k) = Ok o4 ->
  map bl_entry (added o4 t4 (added o3 t3 k)) = map bl_entry (added o2 t2 (added o1 t1 l)).
Proof.
  intros H1 H2 Hx Hy H3 H4. set (l1 := added o1 t1 l) in *. set (l2 := added o2 t2 l1) in *.
  assert (Hk : k = l \/ k = l1 \/ k = l2).
  { assert (Hy1 : k = l2 \/ exists y', y' ++ k = l1).
    { symmetry in Hy. unfold l2 in *. destruct o2 as [e|]; cbn [added] in *; [apply suffix_cons in Hy; exact Hy|right; eauto]. }
    destruct Hy1 as [Hk|[y' Hy']]; [auto|].
    assert (Hy2 : k = l1 \/ exists y', y' ++ k = l).
    { unfold l1 in *. destruct o1 as [e|]; cbn [added] in *; [apply suffix_cons in Hy'; exact Hy'|right; eauto]. }
    destruct Hy2 as [Hk|[z Hz]]; [auto|]. left. eapply between_same; eauto. }
  assert (Hm1 : dM l1 = Ok None) by (apply M_again; exact H1).
  clear Hx Hy. destruct Hk as [Hk|[Hk|Hk]]; subst k.
  - assert (o3 = o1) by congruence. subst o3.
    assert (Hs : map bl_entry (added o1 t3 l) = map bl_entry l1) by (unfold l1; destruct o1; reflexivity).
    rewrite (G_ext _ _ Hs) in H4. assert (o4 = o2) by congruence. subst o4. unfold l2. destruct o2; cbn [added map bl_entry]; rewrite Hs; reflexivity.
  - assert (o3 = None) by congruence. subst o3. cbn [added] in *. assert (o4 = o2) by congruence. subst o4. unfold l2. destruct o2; reflexivity.
  - assert (Hm2 : dM l2 = Ok None).
    { unfold l2. destruct o2 as [e|]; cbn [added]; [|exact Hm1]. rewrite (M_G l1); assumption. }
    assert (o3 = None) by congruence. subst o3. cbn [added] in *.
    assert (Hg2 : dG l2 = Ok None) by (apply G_again; exact H2). assert (o4 = None) by congruence. subst o4. reflexivity.
Qed.
End Sandwich.

(** ** The decisions of update_from_msg and update_from_msg_gossip look at the entries only *)
Lemma msg_entries_map l l' : map bl_entry l = map bl_entry l' -> msg_entries l = msg_entries l'.
Proof.
  revert l'. induction l as [|[t e] l IH]; intros [|[t' e'] l'] H; try discriminate; [reflexivity|].
  cbn [map bl_entry] in H. injection H as -> H. cbn [msg_entries bl_entry]. rewrite (IH _ H). reflexivity.
Qed.
Lemma gossip_entries_map l l' : map bl_entry l = map bl_entry l' -> gossip_entries l = gossip_entries l'.
Proof.
  revert l'. induction l as [|[t e] l IH]; intros [|[t' e'] l'] H; try discriminate; [reflexivity|].
  cbn [map bl_entry] in H. injection H as -> H. cbn [gossip_entries bl_entry]. rewrite (IH _ H). reflexivity.
Qed.
Lemma gossip_decide_map l l' id d kd kh : map bl_entry l = map bl_entry l' -> gossip_decide l id d kd kh = gossip_decide l' id d kd kh.
Proof.
  intros H. unfold gossip_decide, autocrypt_timestamp, latest_ac_entry, get_gossip_message_entry.
  rewrite (msg_entries_map _ _ H), (gossip_entries_map _ _ H). reflexivity.
Qed.

(** ** What a completed loop over the recipients has done with every chain *)
Lemma fold_exact a date id rs : forall d pr s s' d' pr', good a d ->
  arun (foldM (gossip_recipient a date id) rs (d, pr)) s = (s', Ok (d', pr')) ->
  forall n,
   (exists r p key kh, In r rs /\ dget d r = Some p /\ n = peerstate_chain a r /\ p_keydata p = Some key /\ imports_as a key kh /\
      (exists u u' p', arun (import_key a p) u = (u', Ok (Some kh, p'))) /\
      exists o t, gossip_decide (alog s n) id date (Some key) (Some kh) = Ok o /\ alog s' n = added o t (alog s n)) \/
   ((forall r p, In r rs -> dget d r = Some p -> n <> peerstate_chain a r) /\ alog s' n = alog s n).
Proof.
  induction rs as [|x rs IH]; intros d pr s s' d' pr' Hg H n; cbn [foldM] in H.
  - apply arun_ret_ok in H as [-> _]. right. split; [intros r p []|reflexivity].
  - apply arun_bind_ok in H as [s1 [[d1 pr1] [H1 H]]]. unfold gossip_recipient in H1. destruct (dget d x) as [px|] eqn:Ex.
    + apply arun_bind_ok in H1 as [s2 [[h p'] [H2 H1]]]. pose proof (import_key_logs a px s) as Hl. rewrite H2 in Hl. cbn [fst] in Hl.
      assert (Ha : forall k, alog s2 k = alog s k) by (intros k; unfold alog; rewrite Hl; reflexivity).
      destruct (Hg x px Ex) as [Hnx [keyx [khx [Hkx Hix]]]]. destruct (import_key_kh a px s s2 h p' keyx khx H2 Hkx Hix) as [-> ->].
      apply arun_bind_ok in H1 as [s3 [[] [H3 H1]]]. apply arun_ret_ok in H1 as [-> [= -> ->]].
      rewrite update_from_msg_gossip_run, Hkx, Ha in H3.
      assert (Hg' : good a (dset d x px)).
      { intros q pq. rewrite dget_dset. destruct (text_eqb_spec q x) as [->|]; [intros [= <-]; eauto|apply Hg]. }
      assert (Hsame : forall r, dget (dset d x px) r = dget d r).
      { intros r. rewrite dget_dset. destruct (text_eqb_spec r x) as [->|]; congruence. }
      assert (H3' : exists o t, gossip_decide (alog s (peerstate_chain a x)) id date (Some keyx) (Some khx) = Ok o /\
        (forall k, alog s3 k = if text_eqb k (peerstate_chain a x) then added o t (alog s k) else alog s k)).
      { unfold decided in H3. destruct (gossip_decide (alog s (peerstate_chain a x)) id date (Some keyx) (Some khx)) as [[e|]|] eqn:Ed; [| |discriminate]; injection H3 as <-.
        - exists (Some e), (clock (a_tick s2)). split; [reflexivity|]. intros k. rewrite alog_app, !Ha.
          destruct (text_eqb_spec k (peerstate_chain a x)) as [->|]; reflexivity.
        - exists None, 0. split; [reflexivity|]. intros k. rewrite Ha. destruct (text_eqb k _); reflexivity. }
      destruct H3' as [o [t [Ho Hlog]]].
      specialize (IH _ _ _ _ _ _ Hg' H n).
      destruct (text_eqb_spec n (peerstate_chain a x)) as [Hn|Hn].
      * left. exists x, px, keyx, khx. split; [left; reflexivity|]. split; [exact Ex|]. split; [exact Hn|]. split; [exact Hkx|]. split; [exact Hix|]. split; [eauto|].
        exists o, t. rewrite Hn. split; [exact Ho|]. pose proof (Hlog n) as Hln. rewrite Hn, text_eqb_refl in Hln. rewrite Hn in IH.
        destruct IH as [[r [p [key [kh [_ [Hd [Hc [Hk [_ [[u [u' [p' Hu]]] [o' [t' [Ho' Hl']]]]]]]]]]]]]|[_ IH]].
        -- rewrite Hsame in Hd. assert (x = r) by (apply (chain_norm a); [exact Hnx|apply (Hg r p Hd)|exact Hc]). subst r.
           assert (p = px) by congruence. subst p. assert (key = keyx) by congruence. subst key.
           destruct (import_key_kh a px u u' (Some kh) p' keyx khx Hu Hkx Hix) as [[= ->] _].
           rewrite Hln in Ho'. pose proof (settled_once _ _ _ _ _ o t Ho) as Hs. unfold settled in Hs. change (gossip_decide (added o t (alog s (peerstate_chain a x))) id date (Some keyx) (Some khx) = Ok None) in Hs.
           assert (o' = None) by congruence. subst o'. rewrite Hl', Hln. reflexivity.
        -- rewrite IH. exact Hln.
      * pose proof (Hlog n) as Hln. apply text_eqb_neq in Hn. rewrite Hn in Hln. rewrite Hln in IH.
        destruct IH as [[r [p [key [kh [Hr [Hd Hrest]]]]]]|[IH1 IH2]].
        -- left. exists r, p, key, kh. rewrite Hsame in Hd. split; [right; exact Hr|]. split; [exact Hd|]. exact Hrest.
        -- right. split; [|exact IH2]. intros r p [<-|Hr] Hd; [apply text_eqb_neq; exact Hn|]. apply (IH1 r p Hr). rewrite Hsame. exact Hd.
    + apply arun_ret_ok in H1 as [-> [= -> ->]]. specialize (IH _ _ _ _ _ _ Hg H n).
      destruct IH as [[r [p [key [kh [Hr Hrest]]]]]|[IH1 IH2]].
      * left. exists r, p, key, kh. split; [right; exact Hr|exact Hrest].
      * right. split; [|exact IH2]. intros r p [<-|Hr] Hd; [congruence|]. exact (IH1 r p Hr Hd).
Qed.

(** ** ... and what a completed rest of process_incoming has done *)
Definition told (a : text) (m : msg) (nd : bool) (content : bytes) (n : text) (key : bytes) (kh : text) : Prop :=
  nd = false /\ is_encrypted m = Ok true /\ exists dd r p, get_gossip_headers_from_msg (opened_as m content) = Ok dd /\
    In r (get_target_emailadr (opened_as m content)) /\ dget dd r = Some p /\ n = peerstate_chain a r /\ p_keydata p = Some key /\
    exists u u' p', arun (import_key a p) u = (u', Ok (Some kh, p')).

Section Two.
Variables (a : text) (m : msg) (nd : bool) (content : bytes).
Hypothesis Hone : nd = false -> forall c, opens a m c -> c = content.
Hypothesis Hgos : forall v x key pref, In v (hget_all (opened_as m content) (L "Autocrypt-Gossip")) -> key_header v x key pref ->
  norm x = x /\ exists kh, imports_as a key kh.

Lemma gossip_good dd : get_gossip_headers_from_msg (opened_as m content) = Ok dd -> good a dd.
Proof.
  intros Hdd r q Hq. destruct (gossip_full _ _ _ _ Hdd Hq) as [v [key [pref [W1 [W2 [W3 _]]]]]]. destruct (Hgos v r key pref W1 W2) as [N1 [h N2]]. eauto.
Qed.
Lemma told_unique n key kh key' kh' : told a m nd content n key kh -> told a m nd content n key' kh' -> key = key' /\ kh = kh'.
Proof.
  intros [_ [_ [dd [r [p [Hdd [_ [Hd [-> [Hk [u [u' [q Hu]]]]]]]]]]]]] [_ [_ [dd' [r' [p' [Hdd' [_ [Hd' [Hc [Hk' [v [v' [q' Hv]]]]]]]]]]]]].
  assert (dd' = dd) by congruence. subst dd'. pose proof (gossip_good dd Hdd) as Hg.
  assert (r = r') by (apply (chain_norm a); [apply (Hg r p Hd)|apply (Hg r' p' Hd')|exact Hc]). subst r'.
  assert (p' = p) by congruence. subst p'. assert (key' = key) by congruence. subst key'. split; [reflexivity|].
  destruct (Hg r p Hd) as [_ [k0 [h [Hk0 Hi]]]]. assert (k0 = key) by congruence. subst k0.
  destruct (import_key_kh a p u u' _ q key h Hu Hk Hi) as [[= ->] _]. destruct (import_key_kh a p v v' _ q' key h Hv Hk Hi) as [[= ->] _]. reflexivity.
Qed.
Lemma rest_exact dt p s s' i : arun (rest_prog a m nd dt p) s = (s', Ok (Some i)) -> forall n,
  (exists key kh, told a m nd content n key kh /\
     exists o t, gossip_decide (alog s n) (msg_id_text m) dt (Some key) (Some kh) = Ok o /\ alog s' n = added o t (alog s n)) \/
  ((forall key kh, ~ told a m nd content n key kh) /\ alog s' n = alog s n).
Proof.
  intros H n. unfold rest_prog in H. apply arun_bind_ok in H as [t1 [b [H1 H]]].
  apply arun_bind_ok in H as [t2 [gp [H2 H]]]. apply arun_ret_ok in H as [Ht _]. subst t2.
  destruct nd eqn:End.
  { apply arun_ret_ok in H1 as [-> ->]. apply arun_ret_ok in H2 as [-> _]. right. split; [|reflexivity]. intros key kh [Hf _]. discriminate. }
  apply arun_lift_ok in H1 as [-> Hb]. destruct b.
  2:{ apply arun_ret_ok in H2 as [-> _]. right. split; [|reflexivity]. intros key kh [_ [Hf _]]. congruence. }
  apply arun_bind_ok in H2 as [t3 [[dm infos] [G1 H2]]]. pose proof (quiet_logs (decrypt_mime a m) s (quiet_decrypt_mime a m)) as [Lq _]. rewrite G1 in Lq. cbn [fst] in Lq.
  destruct (decrypt_opens _ _ _ _ _ _ G1) as [c [Hc ->]]. apply (Hone eq_refl) in Hc. subst c.
  apply arun_bind_ok in H2 as [t4 [gp' [G2 H2]]]. apply arun_bind_ok in H2 as [t5 [o [G3 H2]]].
  apply own_keyhandle_ok in G3 as [-> _]. apply arun_ret_ok in H2 as [Ht4 _]. subst t4.
  unfold process_gossip_headers in G2. apply arun_bind_ok in G2 as [t4 [dd [G3 G2]]]. apply arun_lift_ok in G3 as [-> Hdd].
  apply arun_bind_ok in G2 as [t4 [[d' pr'] [G2 G3]]]. apply arun_ret_ok in G3 as [Ht _]. subst t4.
  assert (Ha : alog t3 n = alog s n) by (unfold alog; rewrite Lq; reflexivity).
  destruct (fold_exact a dt _ _ _ _ _ _ _ _ (gossip_good dd Hdd) G2 n) as [[r [q [key [kh [F1 [F2 [F3 [F4 [F5 [F6 [o' [t' [F7 F8]]]]]]]]]]]]]|[F1 F2]].
  - left. exists key, kh. split.
    + split; [reflexivity|]. split; [exact Hb|]. exists dd, r, q. auto 10.
    + rewrite Ha in F7, F8. eauto.
  - right. split; [|rewrite F2; exact Ha]. intros key kh [_ [_ [dd' [r [q [Q1 [Q2 [Q3 [Q4 _]]]]]]]]]. rewrite Hdd in Q1. injection Q1 as <-. exact (F1 r q Q2 Q3 Q4).
Qed.
End Two.

(** ** The record of the mail itself *)
Lemma step_msg_log a m p q kh x id dt : parse_one_ac_header_from_msg m [from_addr m] = Ok p ->
  exists o t, msg_decide (alog q (peer_chain a x)) id dt (p_pref p) (p_keydata p) kh = Ok o /\
    forall n, alog (step (LMsg a x id dt (p_pref p) (p_keydata p) kh) q) n = if text_eqb n (peer_chain a x) then added o t (alog q n) else alog q n.
Proof.
  intros Hp. unfold step, step_prog. rewrite update_from_msg_run.
  assert (Hdec : exists o, msg_decide (alog q (peer_chain a x)) id dt (p_pref p) (p_keydata p) kh = Ok o).
  { pose proof (update_ok q (peer_chain a x) id dt p kh) as Hu. rewrite update_from_msg_run in Hu.
    destruct (msg_decide _ id dt _ _ _) as [o|e]; [eauto|]. cbn in Hu. exfalso.
    assert (Err e = @Ok unit tt); [|discriminate]. apply Hu.
    destruct (parse_carries m p Hp) as [Hf|[k [pr [ex [-> [Hv _]]]]]]; [auto|]. right. exists k, pr. auto. }
  destruct Hdec as [o Ho]. rewrite Ho. exists o, (clock (a_tick q)). split; [reflexivity|]. intros n.
  destruct o as [e|]; cbn [decided fst added]; [rewrite alog_app; destruct (text_eqb_spec n (peer_chain a x)) as [->|]; reflexivity|].
  destruct (text_eqb n _); reflexivity.
Qed.

(** ** The call made again: any state between *)
Lemma again_between s s1 a m ign nd i j d content : reachable s -> reachable s1 ->
  only_adds s s1 -> only_adds s1 (after s (AIncoming a m ign nd)) ->
  (nd = false -> forall c, opens a m c -> c = content) ->
  (forall key pref, carries m key pref -> exists kh, imports_as a key kh) ->
  (forall v x key pref, In v (hget_all (opened_as m content) (L "Autocrypt-Gossip")) -> key_header v x key pref ->
     norm x = x /\ exists kh, imports_as a key kh) ->
  let c := AIncoming a m ign nd in
  answer s c = Ok (OIncoming (Some i)) -> answer s1 c = Ok (OIncoming (Some j)) ->
  dated m d -> Z.min d (clock (a_tick s)) = Z.min d (clock (a_tick s1)) ->
  same_entries (after s c) (after s1 c).
Proof.
  intros Hr Hr1 Hadd1 Hadd2 Hone Himp Hgos. cbv zeta. intros H H' Hd Heff n.
  apply answer_inc in H as [He H]; [|exact Hr]. apply answer_inc in H' as [He1 H']; [|exact Hr1].
  specialize (Hadd1 n) as [y1 Hadd1]. specialize (Hadd2 n) as [y2 Hadd2].
  set (sE := after s (AIncoming a m ign nd)) in *. set (sE1 := after s1 (AIncoming a m ign nd)) in *.
  pose proof (incoming_run a m ign nd s) as R1. pose proof (incoming_run a m ign nd s1) as R2. cbv zeta in R1, R2.
  unfold dated in Hd. rewrite Hd in R1, R2. rewrite <- Heff in R2.
  destruct (ign && has_message (peer_log s a (sender_of m)) (msg_id_text m)); [rewrite R1 in H; discriminate|].
  destruct (ign && has_message (peer_log s1 a (sender_of m)) (msg_id_text m)); [rewrite R2 in H'; discriminate|].
  destruct (parse_one_ac_header_from_msg m [from_addr m]) as [p|e] eqn:Hp; [|rewrite R1 in H; discriminate].
  pose proof (import_run_logs a p (step LTick s)) as L1. pose proof (import_run_logs a p (step LTick s1)) as L2.
  destruct (import_run a p (step LTick s)) as [q1 [[kh p1]|e]] eqn:I1; [|rewrite R1 in H; discriminate].
  destruct (import_run a p (step LTick s1)) as [q2 [[kh2 p2]|e]] eqn:I2; [|rewrite R2 in H'; discriminate].
  cbn [fst] in L1, L2.
  assert (A1 : forall k, alog q1 k = alog s k) by (intros k; unfold alog; rewrite L1; reflexivity).
  assert (A2 : forall k, alog q2 k = alog s1 k) by (intros k; unfold alog; rewrite L2; reflexivity).
  set (x := sender_of m) in *. set (id := msg_id_text m) in *. set (dt := Z.min d (clock (a_tick s))) in *.
  assert (Hkh : kh2 = kh /\ forall k, p_keydata p = Some k -> k <> [] -> kh <> None).
  { destruct (parse_carries m p Hp) as [[Hk Herr]|[key [pr [ex [-> [_ Hc]]]]]].
    - split; [|intros k Hk'; congruence]. unfold import_run in I1, I2. rewrite Herr in I1, I2. congruence.
    - destruct (Himp key pr Hc) as [h Hh].
      pose proof (import_run_kh a _ _ _ _ _ key h I1 eq_refl eq_refl Hh) as ->.
      pose proof (import_run_kh a _ _ _ _ _ key h I2 eq_refl eq_refl Hh) as ->.
      split; [reflexivity|]. discriminate. }
  destruct Hkh as [-> Hkh].
  destruct (step_msg_log a m p q1 kh x id dt Hp) as [o1 [t1 [D1 S1]]]. destruct (step_msg_log a m p q2 kh x id dt Hp) as [o3 [t3 [D3 S3]]].
  rewrite R1 in H. rewrite R2 in H'. rewrite A1 in D1. rewrite A2 in D3.
  pose proof (rest_exact a m nd content Hone Hgos _ _ _ _ _ H n) as X1. pose proof (rest_exact a m nd content Hone Hgos _ _ _ _ _ H' n) as X2.
  fold id in X1, X2. rewrite (S1 n), A1 in X1. rewrite (S3 n), A2 in X2.
  set (dM := fun l => if text_eqb n (peer_chain a x) then msg_decide l id dt (p_pref p) (p_keydata p) kh else Ok None).
  assert (M1 : exists o t, dM (alog s n) = Ok o /\ (if text_eqb n (peer_chain a x) then added o1 t1 (alog s n) else alog s n) = added o t (alog s n)).
  { unfold dM. destruct (text_eqb_spec n (peer_chain a x)) as [->|]; [eauto|]. exists None, 0. auto. }
  assert (M2 : exists o t, dM (alog s1 n) = Ok o /\ (if text_eqb n (peer_chain a x) then added o3 t3 (alog s1 n) else alog s1 n) = added o t (alog s1 n)).
  { unfold dM. destruct (text_eqb_spec n (peer_chain a x)) as [->|]; [eauto|]. exists None, 0. auto. }
  destruct M1 as [om1 [tm1 [Dm1 Em1]]]. destruct M2 as [om2 [tm2 [Dm2 Em2]]]. rewrite Em1 in X1. rewrite Em2 in X2.
  assert (M_again : forall l o t, dM l = Ok o -> dM (added o t l) = Ok None).
  { unfold dM. intros l o t Hl. destruct (text_eqb n _); [|reflexivity]. exact (decide_again _ _ _ _ _ _ _ Hl Hkh t). }
  assert (M_ext : forall l l', map bl_entry l = map bl_entry l' -> dM l = dM l').
  { unfold dM. intros l l' Hl. destruct (text_eqb n _); [|reflexivity]. apply msg_decide_ext, msg_entries_map, Hl. }
  unfold entries.
  destruct X1 as [[key [h [T1 [o2 [t2 [G2 E2]]]]]]|[N1 E2]]; destruct X2 as [[key' [h' [T2 [o4 [t4 [G4 E4]]]]]]|[N2 E4]].
  - destruct (told_unique a m nd content Hgos n _ _ _ _ T1 T2) as [<- <-]. rewrite E4. rewrite E2 in Hadd2 |- *.
    apply (between_two dM (fun l => gossip_decide l id dt (Some key) (Some h))) with (x := y1) (y := y2); auto.
    + intros l o t Hl. exact (settled_once _ _ _ _ _ o t Hl).
    + intros l l' Hl. apply gossip_decide_map. exact Hl.
    + intros l e t l' Hl. apply gossip_decide_some in Hl as [_ [k [hh [_ [_ [_ ->]]]]]].
      unfold dM. destruct (text_eqb n _); [|reflexivity]. apply msg_decide_ext. reflexivity.
  - exfalso. eapply N2; eauto.
  - exfalso. eapply N1; eauto.
  - rewrite E4. rewrite E2 in Hadd2 |- *.
    apply (between_two dM (fun _ => Ok None)) with (o2 := None) (o4 := None) (t2 := 0) (t4 := 0) (x := y1) (y := y2); auto.
    + intros; discriminate.
Qed.

Theorem c98_repeat_any s a m ign nd k i j d content : reachable s ->
  (nd = false -> forall c, opens a m c -> c = content) ->
  (forall key pref, carries m key pref -> exists kh, imports_as a key kh) ->
  (forall v x key pref, In v (hget_all (opened_as m content) (L "Autocrypt-Gossip")) -> key_header v x key pref ->
     norm x = x /\ exists kh, imports_as a key kh) ->
  let c := AIncoming a m ign nd in let s1 := killed s c k in
  answer s c = Ok (OIncoming (Some i)) -> answer s1 c = Ok (OIncoming (Some j)) ->
  dated m d -> Z.min d (clock (a_tick s)) = Z.min d (clock (a_tick s1)) ->
  same_entries (after s c) (after s1 c).
Proof.
  intros Hr Hone Himp Hgos. cbv zeta. intros H H' Hd Heff.
  destruct (c98_adds s (AIncoming a m ign nd) k Hr) as [A1 A2]; [intros b; reflexivity|].
  eapply again_between; eauto. apply reachable_killed. exact Hr.
Qed.
Theorem c98_repeat_many s a m ign nd ks d content : reachable s ->
  (nd = false -> forall c, opens a m c -> c = content) ->
  (forall key pref, carries m key pref -> exists kh, imports_as a key kh) ->
  (forall v x key pref, In v (hget_all (opened_as m content) (L "Autocrypt-Gossip")) -> key_header v x key pref ->
     norm x = x /\ exists kh, imports_as a key kh) ->
  let c := AIncoming a m ign nd in
  dated m d ->
  (forall ks1 ks2, ks = ks1 ++ ks2 -> (exists i, answer (tried s c ks1) c = Ok (OIncoming (Some i))) /\
     Z.min d (clock (a_tick (tried s c ks1))) = Z.min d (clock (a_tick s))) ->
  same_entries (after s c) (after (tried s c ks) c).
Proof.
  intros Hr Hone Himp Hgos. cbv zeta. intros Hd. revert s Hr. induction ks as [|k ks IH]; intros s Hr H.
  { intros n. reflexivity. }
  destruct (H [] (k :: ks) eq_refl) as [[i H0] _]. destruct (H [k] ks eq_refl) as [[j H1] T1]. cbn [tried] in H0, H1, T1.
  intros n. cbn [tried]. transitivity (entries (after (killed s (AIncoming a m ign nd) k) (AIncoming a m ign nd)) n).
  - apply IH; [apply reachable_killed, Hr|]. intros ks1 ks2 Hks. destruct (H (k :: ks1) ks2) as [X T]; [rewrite Hks; reflexivity|].
    cbn [tried] in X, T. split; [exact X|]. rewrite T, T1. reflexivity.
  - eapply c98_repeat_any; eauto.
Qed.
End Kill2.
