(** Gossip in incoming mail: C36 to C38. *)
From Verif Require Import Base PyStr Base64 Env Prog Chain Gpg Mime States Recommendation Account Cmdline Bot Fs Api Steps StepFacts Exec ApiScope Spec Obs PeerSpec Incoming PeerFacts PeerProofs4 Quiet OutSpec OutProofs OutProofs2.

Section Gossip.
Context {E : Env}.
Local Open Scope Z_scope.

Lemma gossip_loop_from vals : forall acc d k p, gossip_loop acc vals = Ok d -> dget d k = Some p ->
  dget acc k = Some p \/ exists v, In v vals /\ parse_ac_headervalue v = Ok p /\ has_error p = false /\ p_addr p = Some k.
Proof.
  induction vals as [|v vals IH]; intros acc d k p; cbn [gossip_loop].
  - intros [= ->]. auto.
  - destruct (parse_ac_headervalue v) as [r|] eqn:Ev; cbn [rbind]; [|discriminate].
    destruct (has_error r) eqn:Eh; intros Hl Hd; destruct (IH _ _ _ _ Hl Hd) as [H|[w [Hw H]]];
      try (right; exists w; split; [right; exact Hw|exact H]); auto.
    destruct (p_addr r) as [x|] eqn:Ex; [|auto]. rewrite dget_dset in H.
    destruct (text_eqb_spec k x) as [->|]; [|auto]. injection H as <-. right. exists v. split; [left; reflexivity|]. auto.
Qed.
Lemma gossip_loop_keeps vals : forall acc d k p, gossip_loop acc vals = Ok d -> dget acc k = Some p -> exists p', dget d k = Some p'.
Proof.
  induction vals as [|v vals IH]; intros acc d k p; cbn [gossip_loop].
  - intros [= ->]. eauto.
  - destruct (parse_ac_headervalue v) as [r|]; cbn [rbind]; [|discriminate].
    destruct (has_error r); intros Hl Hd; [eapply IH; eauto|].
    destruct (p_addr r) as [x|]; [|eapply IH; eauto].
    destruct (text_eqb_spec k x) as [->|Hn].
    + eapply IH; [exact Hl|]. rewrite dget_dset, text_eqb_refl. reflexivity.
    + eapply IH; [exact Hl|]. rewrite dget_dset. apply text_eqb_neq in Hn. rewrite Hn. exact Hd.
Qed.
Lemma gossip_loop_has vals : forall acc d v k key pref, gossip_loop acc vals = Ok d -> In v vals -> key_header v k key pref -> exists p, dget d k = Some p.
Proof.
  induction vals as [|w vals IH]; intros acc d v k key pref Hl Hi Hk; [destruct Hi|]. cbn [gossip_loop] in Hl.
  destruct Hi as [->|Hi].
  - destruct Hk as [extra Hk]. rewrite Hk in Hl. cbn [rbind p_addr] in Hl. change (has_error (PAH (Some key) (Some k) (Some pref) (Some extra) None)) with false in Hl.
    eapply gossip_loop_keeps; [exact Hl|]. rewrite dget_dset, text_eqb_refl. reflexivity.
  - destruct (parse_ac_headervalue w) as [r|]; cbn [rbind] in Hl; [|discriminate]. destruct (has_error r); eapply IH; eauto.
Qed.
Lemma gossip_full m d k p : get_gossip_headers_from_msg m = Ok d -> dget d k = Some p ->
  exists v key pref, In v (hget_all m (L "Autocrypt-Gossip")) /\ key_header v k key pref /\ p_keydata p = Some key /\ has_error p = false.
Proof.
  intros H1 H2. destruct (gossip_loop_from _ _ _ _ _ H1 H2) as [H|[v [Hv [Hp [He Ha]]]]]; [discriminate|].
  destruct (parse_cases v p Hp) as [[key [x [pref [extra [-> _]]]]]|[_ Hf]]; [|congruence].
  injection Ha as ->. exists v, key, pref. split; [exact Hv|]. split; [exists extra; exact Hp|]. auto.
Qed.

(** ** C36 *)
Lemma opened_gossip m content : hget_all m (L "Autocrypt-Gossip") = [] ->
  hget_all (opened_as m content) (L "Autocrypt-Gossip") = hget_all (parse_bytes content) (L "Autocrypt-Gossip").
Proof.
  intros Hn. destruct (opened_headers m content) as [_ Hh]. unfold hget_all at 1. rewrite Hh, filter_app, map_app.
  fold (hget_all (parse_bytes content) (L "Autocrypt-Gossip")).
  assert (Ho : map snd (filter (fun kv => text_eqb (lower (fst kv)) (lower (L "Autocrypt-Gossip"))) (outer_headers m)) = hget_all m (L "Autocrypt-Gossip")).
  { unfold hget_all, outer_headers. rewrite filter_filter. f_equal. apply filter_ext. intros [k v]. cbn [fst].
    destruct (text_eqb_spec (lower k) (lower (L "Autocrypt-Gossip"))) as [He|He]; [|apply andb_false_r].
    rewrite andb_true_r. unfold named. cbn [fst]. rewrite He. reflexivity. }
  rewrite Ho, Hn. apply app_nil_r.
Qed.

Theorem c36 : forall s c a x v, reachable s -> peer_of s a x = Some v -> deletes a c = false ->
  (forall m, In m (mails_for a c) -> hget_all m (L "Autocrypt-Gossip") = []) ->
  exists v', peer_of (after s c) a x = Some v' /\
    (pv_latest_gossip v' = pv_latest_gossip v \/
     exists g m content w r pref, pv_latest_gossip v' = Some g /\ In m (mails_for a c) /\ is_encrypted m = Ok true /\
       opens a m content /\ In w (hget_all (parse_bytes content) (L "Autocrypt-Gossip")) /\
       key_header w r (ge_keydata g) pref /\ norm r = norm x).
Proof.
  intros s c a x v Hr Hv Hd Hm. pose proof (reachable_WF s Hr) as Hw. destruct (peer_of_some s a x v Hw Hv) as [He ->].
  pose proof (exists_isalnum s a Hw He) as Ha.
  assert (Hr' : reachable (after s c)) by (apply reachable_step; exact Hr). pose proof (reachable_WF _ Hr') as Hw'.
  assert (He' : exists_acct (after s c) a) by (apply (after_exists s c a); assumption).
  rewrite (peer_of_spec (after s c) a x Hw' He'). eexists. split; [reflexivity|]. rewrite !view_gossip.
  destruct (after_gossips c a (norm x) s Hw Hd Ha) as [new [-> HF]]. destruct new as [|g new]; [left; reflexivity|].
  right. inversion HF as [|? ? Hg _]; subst. destruct Hg as [m [G1 [_ [G3 [_ [_ [content [r [pahs [p [O1 [O2 [O3 [O4 [O5 O6]]]]]]]]]]]]]]].
  destruct (gossip_full _ _ _ _ O4 O5) as [w [key [pref [W1 [W2 [W3 _]]]]]]. rewrite W3 in O6. injection O6 as <-.
  rewrite opened_gossip in W1 by (apply Hm; exact G1).
  exists g, m, content, w, r, pref. split; [reflexivity|]. auto 8.
Qed.

(** ** Processing of gossip, in detail *)
Lemma import_key_logs a p s : a_logs (fst (arun (import_key a p) s)) = a_logs s.
Proof. apply quiet_logs, quiet_import_key. Qed.

Lemma gossip_recipient_ok a date id d pr r s s' d' pr' :
  arun (gossip_recipient a date id (d, pr) r) s = (s', Ok (d', pr')) ->
  (dget d r = None /\ s' = s /\ d' = d /\ pr' = pr) \/
  exists p p' kh s1, dget d r = Some p /\ p_keydata p' = p_keydata p /\ d' = dset d r p' /\ pr' = dset pr r p' /\
    a_logs s1 = a_logs s /\ decided s1 (peerstate_chain a r) (gossip_decide (alog s (peerstate_chain a r)) id date (p_keydata p) kh) = (s', Ok tt).
Proof.
  unfold gossip_recipient. destruct (dget d r) as [p|] eqn:Ed; intros H.
  - right. apply arun_bind_ok in H as [s1 [[kh p'] [H1 H]]]. pose proof (import_key_logs a p s) as Hl. rewrite H1 in Hl. cbn [fst] in Hl.
    apply import_key_shape in H1 as [_ Hk]. apply arun_bind_ok in H as [s2 [[] [H1 H]]]. apply arun_ret_ok in H as [-> [= -> ->]].
    rewrite update_from_msg_gossip_run in H1. exists p, p', kh, s1.
    rewrite Hk in H1. unfold alog in H1. rewrite Hl in H1. auto 8.
  - left. apply arun_ret_ok in H as [-> [= -> ->]]. auto.
Qed.

Definition grows (s s' : ast) : Prop := forall n, msg_entries (alog s' n) = msg_entries (alog s n) /\
  exists new, gossip_entries (alog s' n) = new ++ gossip_entries (alog s n).
Lemma grows_refl s : grows s s. Proof. intros n. split; [reflexivity|]. exists []. reflexivity. Qed.
Lemma grows_trans s1 s2 s3 : grows s1 s2 -> grows s2 s3 -> grows s1 s3.
Proof. intros H1 H2 n. destruct (H1 n) as [A1 [l1 B1]], (H2 n) as [A2 [l2 B2]]. split; [congruence|]. exists (l2 ++ l1). rewrite B2, B1, app_assoc. reflexivity. Qed.
Lemma decided_gossip s s1 s' chain l id date kd kh : a_logs s1 = a_logs s -> l = alog s chain ->
  decided s1 chain (gossip_decide l id date kd kh) = (s', Ok tt) ->
  grows s s' /\ (date < autocrypt_timestamp (alog s' chain) \/
    exists k h, kd = Some k /\ In (GossipEntry id date k h) (gossip_entries (alog s' chain))).
Proof.
  intros Hl -> H. assert (Ha : forall n, alog s1 n = alog s n) by (intros; unfold alog; rewrite Hl; reflexivity).
  assert (Hg : grows s s1) by (intros n; rewrite Ha; split; [reflexivity|exists []; reflexivity]).
  unfold decided in H. destruct (gossip_decide (alog s chain) id date kd kh) as [[e|]|x] eqn:Ed; [| |discriminate]; injection H as <-.
  - apply gossip_decide_some in Ed as [_ [k [h [-> [_ [-> ->]]]]]]. split.
    + apply grows_trans with (1 := Hg). intros n. rewrite alog_app. destruct (text_eqb_spec n chain) as [->|]; [|apply grows_refl].
      split; [reflexivity|]. eexists [_]. reflexivity.
    + right. exists k, h. split; [reflexivity|]. rewrite alog_app, text_eqb_refl. left. reflexivity.
  - split; [exact Hg|]. rewrite Ha. unfold gossip_decide in Ed. destruct (Z.ltb_spec date (autocrypt_timestamp (alog s chain))) as [|_]; [auto|].
    right. destruct (nonempty _); [|discriminate]. cbn [negb] in Ed. cbv zeta in Ed.
    destruct (get_gossip_message_entry (alog s chain) id) as [[id' d' k' h']|] eqn:Eg.
    + unfold get_gossip_message_entry in Eg. apply find_some in Eg as [Hi Hid]. apply text_eqb_eq in Hid.
      cbn [ge_id ge_date ge_keydata ge_kh] in *.
      destruct (Z.eqb_spec d' date) as [->|]; cbn [andb] in Ed; [|destruct (mk_gossip_entry _ _ _ _); discriminate].
      destruct (eq_opt k' kd) eqn:Ek; cbn [andb] in Ed; [|destruct (mk_gossip_entry _ _ _ _); discriminate].
      destruct kd as [k|]; [|discriminate]. cbn [eq_opt] in Ek. apply text_eqb_eq in Ek. subst.
      exists k, h'. split; [reflexivity|exact Hi].
    + destruct (mk_gossip_entry _ _ _ _); discriminate.
Qed.
Lemma grows_ts s s' n : grows s s' -> autocrypt_timestamp (alog s' n) = autocrypt_timestamp (alog s n).
Proof. intros H. destruct (H n) as [H1 _]. unfold autocrypt_timestamp, latest_ac_entry. rewrite H1. reflexivity. Qed.
Lemma grows_gossip s s' n g : grows s s' -> In g (gossip_entries (alog s n)) -> In g (gossip_entries (alog s' n)).
Proof. intros H Hn. destruct (H n) as [_ [l ->]]. apply in_or_app. right. exact Hn. Qed.

Lemma arun_ret {A} (x : A) s : arun (Ret x) s = (s, Ok x). Proof. reflexivity. Qed.
Definition kd_of (d : dict pah) (r : text) : option (option bytes) := option_map p_keydata (dget d r).
Lemma gossip_fold_ok a date id rs : forall d pr s s' d' pr',
  (forall r q, dget pr r = Some q -> kd_of d r = Some (p_keydata q)) ->
  arun (foldM (gossip_recipient a date id) rs (d, pr)) s = (s', Ok (d', pr')) ->
  (forall r q, dget pr' r = Some q -> kd_of d r = Some (p_keydata q)) /\ grows s s' /\
  (forall r, dget pr r <> None -> dget pr' r <> None) /\
  (forall r, In r rs -> dget d r <> None -> dget pr' r <> None /\
     (date < autocrypt_timestamp (alog s' (peerstate_chain a r)) \/
      exists k h, kd_of d r = Some (Some k) /\ In (GossipEntry id date k h) (gossip_entries (alog s' (peerstate_chain a r))))).
Proof.
  induction rs as [|r rs IH]; intros d pr s s' d' pr' HJ H; cbn [foldM] in H.
  - apply arun_ret_ok in H as [-> [= -> ->]]. split; [exact HJ|]. split; [apply grows_refl|]. split; [auto|]. intros r [].
  - apply arun_bind_ok in H as [s1 [[d1 pr1] [H1 H]]].
    apply gossip_recipient_ok in H1 as [[Hd [-> [-> ->]]]|[p [p' [kh [s2 [Hd [Hp [-> [-> [Hl Hdec]]]]]]]]]].
    + destruct (IH _ _ _ _ _ _ HJ H) as [I1 [I2 [I3 I4]]]. split; [exact I1|]. split; [exact I2|]. split; [exact I3|].
      intros q [<-|Hq] Hn; [congruence|auto].
    + assert (HK : forall q, kd_of (dset d r p') q = kd_of d q).
      { intros q. unfold kd_of. rewrite dget_dset. destruct (text_eqb_spec q r) as [->|]; [|reflexivity]. rewrite Hd. cbn. congruence. }
      destruct (decided_gossip s s2 s1 _ _ id date (p_keydata p) kh Hl eq_refl Hdec) as [D1 D2].
      assert (HJ' : forall q x, dget (dset pr r p') q = Some x -> kd_of (dset d r p') q = Some (p_keydata x)).
      { intros q x. rewrite HK, dget_dset. destruct (text_eqb_spec q r) as [->|]; [|apply HJ].
        intros [= <-]. unfold kd_of. rewrite Hd. cbn. congruence. }
      destruct (IH _ _ _ _ _ _ HJ' H) as [I1 [I2 [I3 I4]]].
      split; [intros q x Hx; rewrite <- HK; apply I1; exact Hx|]. split; [eapply grows_trans; eauto|].
      assert (Hdr : dget pr' r <> None) by (apply I3; rewrite dget_dset, text_eqb_refl; discriminate).
      split. { intros q Hq. apply I3. rewrite dget_dset. destruct (text_eqb q r); [discriminate|exact Hq]. }
      intros q [<-|Hq] Hn.
      * split; [exact Hdr|]. rewrite (grows_ts _ _ _ I2). destruct D2 as [D2|[k [h [D2 D3]]]]; [left; exact D2|right].
        exists k, h. split; [unfold kd_of; rewrite Hd; cbn; congruence|eapply grows_gossip; eauto].
      * destruct (I4 q Hq) as [K1 K2]; [rewrite dget_dset; destruct (text_eqb q r); [discriminate|exact Hn]|].
        split; [exact K1|]. destruct K2 as [K2|[k [h [K2 K3]]]]; [left; exact K2|right]. exists k, h. rewrite <- HK. auto.
Qed.

(** process_incoming with decryption continues where it would have stopped without *)
Lemma incoming_two a m ign s i : reachable s -> exists_acct s a ->
  (exists s', arun (process_incoming a m ign false) s = (s', Ok (Some i))) \/ (exists s', arun (process_incoming a m ign true) s = (s', Ok (Some i))) ->
  exists date p, in_date i = date /\
    arun (process_incoming a m ign true) s = (fst (arun (process_incoming a m ign true) s), Ok (Some (Incoming (msg_id_text m) date (peerstate_chain a (from_addr m)) a p []))) /\
    arun (process_incoming a m ign false) s = arun (rest_prog a m false date p) (fst (arun (process_incoming a m ign true) s)).
Proof.
  intros Hr He H. pose proof (incoming_run a m ign false s) as HF. pose proof (incoming_run a m ign true s) as HT. cbv zeta in HF, HT.
  destruct (parse_date_to_float (hget m (L "Date"))) as [d|e]; [|rewrite HF, HT in H; destruct H as [[? H]|[? H]]; discriminate].
  destruct (ign && has_message _ _); [rewrite HF, HT in H; destruct H as [[? H]|[? H]]; discriminate|].
  destruct (parse_one_ac_header_from_msg m [from_addr m]) as [p|e]; [|rewrite HF, HT in H; destruct H as [[? H]|[? H]]; discriminate].
  destruct (import_run a p (step LTick s)) as [s1 [[kh p']|e]]; [|rewrite HF, HT in H; destruct H as [[? H]|[? H]]; discriminate].
  set (s2 := step (LMsg a (sender_of m) (msg_id_text m) (Z.min d (clock (a_tick s))) (p_pref p) (p_keydata p) kh) s1) in *.
  assert (HT' : arun (process_incoming a m ign true) s = (s2, Ok (Some (Incoming (msg_id_text m) (Z.min d (clock (a_tick s))) (peerstate_chain a (from_addr m)) a p' [])))).
  { rewrite HT. reflexivity. }
  exists (Z.min d (clock (a_tick s))), p'. rewrite HT'. cbn [fst]. split; [|split; [reflexivity|exact HF]].
  destruct H as [[s' H]|[s' H]]; [|rewrite HT' in H; injection H as _ <-; reflexivity].
  rewrite HF in H. unfold rest_prog in H. apply arun_bind_ok in H as [s3 [b [_ H]]]. apply arun_bind_ok in H as [s4 [g [_ H]]].
  apply arun_ret_ok in H as [_ [= ->]]. reflexivity.
Qed.
Lemma answer_decrypt s a m dm infos : reachable s -> answer s (ADecrypt a m) = Ok (ODecrypted dm infos) ->
  exists_acct s a /\ arun (decrypt_mime a m) s = (after s (ADecrypt a m), Ok (dm, infos)).
Proof.
  intros Hr. pose proof (reachable_WF s Hr) as Hw. unfold answer, after. cbn [exec].
  destruct (exists_acct_dec s a) as [He|He]; [|rewrite arun_with_account_none by auto; discriminate].
  rewrite arun_with_account by auto. rewrite arun_bind. destruct (arun (decrypt_mime a m) s) as [s1 [[d1 i1]|e]]; cbn; [|discriminate].
  intros [= <- <-]. auto.
Qed.
Lemma answer_inc s a m ign nd i : reachable s -> answer s (AIncoming a m ign nd) = Ok (OIncoming (Some i)) ->
  exists_acct s a /\ arun (process_incoming a m ign nd) s = (after s (AIncoming a m ign nd), Ok (Some i)).
Proof.
  intros Hr. pose proof (reachable_WF s Hr) as Hw. unfold answer, after. cbn [exec].
  destruct (exists_acct_dec s a) as [He|He]; [|rewrite arun_with_account_none by auto; discriminate].
  rewrite arun_with_account by auto. rewrite arun_bind. destruct (arun (process_incoming a m ign nd) s) as [s1 [i1|e]]; cbn; [|discriminate].
  intros [= <-]. auto.
Qed.
Lemma after_inc s a m ign nd : reachable s -> exists_acct s a -> after s (AIncoming a m ign nd) = fst (arun (process_incoming a m ign nd) s).
Proof. intros Hr He. apply answer_incoming; [apply reachable_WF; exact Hr|exact He]. Qed.

(** ** C37 *)
Theorem c37 : forall s a m ign i dm infos r v key pref, reachable s ->
  answer s (AIncoming a m ign false) = Ok (OIncoming (Some i)) -> is_encrypted m = Ok true ->
  answer (after s (AIncoming a m ign true)) (ADecrypt a m) = Ok (ODecrypted dm infos) ->
  In r (targets dm) -> In v (hget_all dm (L "Autocrypt-Gossip")) -> key_header v r key pref ->
  exists p key' w pref' v', dget (in_gossip i) r = Some p /\ p_keydata p = Some key' /\
    In w (hget_all dm (L "Autocrypt-Gossip")) /\ key_header w r key' pref' /\
    peer_of (after s (AIncoming a m ign false)) a r = Some v' /\
    (in_date i < pv_ac_timestamp v' \/
     (pv_latest_gossip v' <> None /\ exists t kh, In (Block t (EGossip (GossipEntry (msg_id_text m) (in_date i) key' kh)))
        (alog (after s (AIncoming a m ign false)) (L "peer:" ++ a ++ L ":" ++ norm r)))).
Proof.
  intros s a m ign i dm infos r v key pref Hr H Henc Hdec Hin Hv Hk.
  apply answer_inc in H as [He H]; [|exact Hr].
  assert (Hr1 : reachable (after s (AIncoming a m ign true))) by (apply reachable_step; exact Hr).
  apply answer_decrypt in Hdec as [He1 Hdec]; [|exact Hr1].
  destruct (incoming_two a m ign s i Hr He) as [date [p [Hdate [HT HF]]]]; [left; eauto|].
  rewrite H, <- (after_inc s a m ign true Hr He) in HF. symmetry in HF.
  set (s1 := after s (AIncoming a m ign true)) in *. set (s' := after s (AIncoming a m ign false)) in *.
  unfold rest_prog in HF. rewrite Henc in HF. apply arun_bind_ok in HF as [s3 [b [H1 HF]]].
  apply arun_ret_ok in H1 as [-> ->]. apply arun_bind_ok in HF as [s3 [g [H1 HF]]]. apply arun_ret_ok in HF as [Hs3 [= Hi]]. subst s3.
  apply arun_bind_ok in H1 as [s3 [[dm' infos'] [H1 H2]]]. rewrite Hdec in H1. injection H1 as <- <- <-.
  apply arun_bind_ok in H2 as [s4 [gp [H1 H2]]]. apply arun_bind_ok in H2 as [s5 [o [H2 H3]]].
  apply own_keyhandle_ok in H2 as [-> _]. apply arun_ret_ok in H3 as [Hs4 ->]. subst s4.
  unfold process_gossip_headers in H1. apply arun_bind_ok in H1 as [s4 [d [H1 H2]]]. apply arun_lift_ok in H1 as [-> Hd].
  apply arun_bind_ok in H2 as [s4 [[d' pr'] [H1 H2]]]. apply arun_ret_ok in H2 as [Hs4 ->]. subst s4. cbn [snd] in Hi.
  apply gossip_fold_ok in H1 as [I1 [I2 [_ I4]]]; [|intros; discriminate].
  destruct (gossip_loop_has _ _ _ _ _ _ _ Hd Hv Hk) as [p0 Hp0].
  destruct (I4 r Hin) as [J1 J2]; [congruence|]. rewrite Hi. cbn [in_gossip in_date].
  destruct (dget pr' r) as [q|] eqn:Eq; [|congruence]. specialize (I1 r q Eq). unfold kd_of in I1, J2. rewrite Hp0 in I1, J2.
  destruct (gossip_full _ _ _ _ Hd Hp0) as [w [key' [pref' [W1 [W2 [W3 _]]]]]]. cbn [option_map] in I1, J2.
  assert (Hr' : reachable s') by (apply reachable_step; exact Hr).
  assert (He' : exists_acct s' a).
  { apply after_exists; [apply reachable_WF; exact Hr|reflexivity|exact He]. }
  exists q, key', w, pref'. rewrite (peer_of_spec s' a r (reachable_WF _ Hr') He'). eexists.
  split; [reflexivity|]. split; [congruence|]. split; [exact W1|]. split; [exact W2|]. split; [reflexivity|].
  cbn [view_of pv_ac_timestamp pv_latest_gossip].
  change (peer_log s' a (norm r)) with (alog s' (peerstate_chain a r)).
  assert (Hch : L "peer:" ++ a ++ L ":" ++ norm r = peerstate_chain a r) by (unfold peerstate_chain, peer_chain, peer_prefix; rewrite <- !app_assoc; reflexivity).
  rewrite Hch.
  destruct J2 as [J2|[k [h [J2 J3]]]]; [left; exact J2|right].
  assert (k = key') by congruence. subst k. split.
  - unfold latest_gossip_entry. destruct (gossip_entries _); [destruct J3|discriminate].
  - apply In_gossip_entries in J3 as [t J3]. exists t, h. exact J3.
Qed.

(** ** C38 *)
Lemma get_bingpg_config a s s' : config_of s' a = config_of s a -> snd (arun (get_bingpg a) s') = snd (arun (get_bingpg a) s).
Proof.
  intros H. unfold get_bingpg. rewrite !arun_bind, !arun_own_config, H. destruct (config_of s a) as [c|]; [|reflexivity].
  cbv beta iota. destruct (negb _); [reflexivity|]. destruct (text_eqb _ _); [destruct (mk_bingpg _ _); reflexivity|].
  destruct (text_eqb _ _); [destruct (mk_bingpg _ _); reflexivity|reflexivity].
Qed.
Lemma import_importable a s p key kh g : snd (arun (get_bingpg a) s) = Ok g -> p_keydata p = Some key -> imports_as a key kh ->
  exists s', arun (import_key a p) s = (s', Ok (Some kh, p)) /\ a_logs s' = a_logs s.
Proof.
  intros Hg Hk Hi. pose proof (import_key_logs a p s) as Hl. unfold import_key in *. rewrite arun_bind in *.
  pose proof (Hi s g) as Hi'. destruct (arun (get_bingpg a) s) as [s1 rg] eqn:Eg. cbn [snd] in Hg, Hi'. subst rg.
  rewrite Hk in *. rewrite arun_catch, arun_bind in *. specialize (Hi' s1 eq_refl).
  destruct (arun (import_keydata g key false) s1) as [s2 r2]. cbn [snd] in Hi'. subst r2. cbn in *. eauto.
Qed.
Lemma decided_own s chain l id date (key : bytes) kh : key <> [] ->
  exists s', decided s chain (gossip_decide l id date (Some key) (Some kh)) = (s', Ok tt) /\ (forall n, n <> chain -> alog s' n = alog s n).
Proof.
  intros Hk. unfold gossip_decide. destruct (Z.ltb _ _); [eexists; split; [reflexivity|auto]|].
  destruct key as [|b key]; [congruence|]. cbn [nonempty negb].
  set (dup := match get_gossip_message_entry l id with Some _ => _ | None => _ end). destruct dup; [eexists; split; [reflexivity|auto]|].
  cbn [mk_gossip_entry]. eexists. split; [reflexivity|]. intros n Hn. cbn [fst]. rewrite alog_app. apply text_eqb_neq in Hn. rewrite Hn. reflexivity.
Qed.
Lemma gossip_fold_total a date id g rs : forall d pr s,
  snd (arun (get_bingpg a) s) = Ok g ->
  (forall k p, dget d k = Some p -> exists key kh, p_keydata p = Some key /\ key <> [] /\ imports_as a key kh) ->
  exists s' d' pr', arun (foldM (gossip_recipient a date id) rs (d, pr)) s = (s', Ok (d', pr')) /\ alog s' (own_chain a) = alog s (own_chain a).
Proof.
  induction rs as [|r rs IH]; intros d pr s Hg Hd; cbn [foldM]; [exists s, d, pr; auto|].
  rewrite arun_bind. unfold gossip_recipient at 1. destruct (dget d r) as [p|] eqn:Ed.
  - destruct (Hd r p Ed) as [key [kh [H1 [H2 H3]]]]. destruct (import_importable a s p key kh g Hg H1 H3) as [s1 [E1 L1]].
    rewrite arun_bind, E1. cbv beta iota. rewrite arun_bind, update_from_msg_gossip_run, H1.
    destruct (decided_own s1 (peerstate_chain a r) (alog s1 (peerstate_chain a r)) id date key kh H2) as [s2 [E2 L2]]. rewrite E2. cbv beta iota.
    rewrite arun_ret. cbv beta iota.
    assert (Ho : alog s2 (own_chain a) = alog s (own_chain a)).
    { rewrite L2; [unfold alog; rewrite L1; reflexivity|apply own_peer]. }
    destruct (IH (dset d r p) (dset pr r p) s2) as [s' [d' [pr' [I1 I2]]]].
    + rewrite (get_bingpg_config a s s2); [exact Hg|unfold config_of; rewrite Ho; reflexivity].
    + intros k q. rewrite dget_dset. destruct (text_eqb_spec k r) as [->|]; [intros [= <-]; eauto|apply Hd].
    + exists s', d', pr'. split; [exact I1|congruence].
  - rewrite arun_ret. cbv beta iota. apply IH; assumption.
Qed.
Lemma gossip_loop_total vals : forall acc, (forall v, In v vals -> exists p, parse_ac_headervalue v = Ok p) ->
  exists d, gossip_loop acc vals = Ok d.
Proof.
  induction vals as [|v vals IH]; intros acc H; cbn [gossip_loop]; [eauto|].
  destruct (H v (or_introl eq_refl)) as [p ->]. cbn [rbind]. assert (H' : forall w, In w vals -> exists p, parse_ac_headervalue w = Ok p) by (intros; apply H; right; assumption).
  destruct (has_error p); apply IH; exact H'.
Qed.

Theorem c38 : forall s a m ign i dm infos, reachable s ->
  answer s (AIncoming a m ign true) = Ok (OIncoming (Some i)) -> is_encrypted m = Ok true ->
  answer (after s (AIncoming a m ign true)) (ADecrypt a m) = Ok (ODecrypted dm infos) ->
  (forall v, In v (hget_all dm (L "Autocrypt-Gossip")) -> error_header v \/
     exists x key pref kh, key_header v x key pref /\ key <> [] /\ imports_as a key kh) ->
  exists i', answer s (AIncoming a m ign false) = Ok (OIncoming (Some i')) /\ in_id i' = in_id i /\ in_date i' = in_date i /\ in_pah i' = in_pah i.
Proof.
  intros s a m ign i dm infos Hr H Henc Hdec Hv. pose proof (reachable_WF s Hr) as Hw.
  apply answer_inc in H as [He H]; [|exact Hr].
  assert (Hr1 : reachable (after s (AIncoming a m ign true))) by (apply reachable_step; exact Hr).
  apply answer_decrypt in Hdec as [He1 Hdec]; [|exact Hr1].
  destruct (incoming_two a m ign s i Hr He) as [date [p [Hdate [HT HF]]]]; [right; eauto|].
  rewrite H in HT. injection HT as ->. cbn [in_id in_date in_pah] in *.
  rewrite <- (after_inc s a m ign true Hr He) in HF.
  set (s1 := after s (AIncoming a m ign true)) in *. set (s2 := after s1 (ADecrypt a m)) in *.
  destruct (answer_incoming s a m ign false Hw He) as [_ ->].
  assert (Hs2 : a_logs s2 = a_logs s1) by (apply decrypt_mime_ok in Hdec as [_ [[? _] _]]; assumption).
  assert (Hgp : exists g, snd (arun (get_bingpg a) s2) = Ok g).
  { unfold decrypt_mime in Hdec. apply arun_bind_ok in Hdec as [q [b [H1 H2]]]. apply arun_lift_ok in H1 as [-> _].
    apply arun_bind_ok in H2 as [q [[] [H1 H2]]]. apply arun_assert_ok in H1 as [-> _].
    destruct (m_body m) as [| | |[|p0 [|p1 [|]]]]; try discriminate.
    apply arun_bind_ok in H2 as [q [b' [H1 H2]]]. assert (q = s1) by (destruct (m_body p1); try discriminate; try destruct (is_ascii _); try discriminate; apply arun_ret_ok in H1 as [? _]; assumption). subst q. clear H1.
    apply arun_bind_ok in H2 as [q [g [H1 H2]]]. exists g. rewrite (get_bingpg_config a s1 s2); [rewrite H1; reflexivity|].
    unfold config_of, alog. rewrite Hs2. reflexivity. }
  destruct Hgp as [g Hg].
  destruct (gossip_loop_total (hget_all dm (L "Autocrypt-Gossip")) []) as [d Hd].
  { intros v Hi. destruct (Hv v Hi) as [[p0 [H0 _]]|[x [key [pref [kh [[extra H0] _]]]]]]; eauto. }
  destruct (gossip_fold_total a date (msg_id_text m) g (get_target_emailadr dm) d [] s2 Hg) as [s3 [d' [pr' [F1 F2]]]].
  { intros k q Hk. destruct (gossip_full _ _ _ _ Hd Hk) as [v [key [pref [G1 [[extra G2] [G3 _]]]]]].
    destruct (Hv v G1) as [[p0 [H0 H1]]|[x [key' [pref' [kh [[extra' H0] [H1 H2]]]]]]].
    - rewrite G2 in H0. injection H0 as <-. discriminate.
    - rewrite G2 in H0. injection H0 as <- <- <- <-. exists key, kh. auto. }
  assert (Hkg : exists k, keygen_of s3 a = Some k).
  { destruct He1 as [c [k [_ Hk]]]. exists k. unfold keygen_of. rewrite F2. unfold keygen_of, alog in *. rewrite Hs2. exact Hk. }
  destruct Hkg as [k Hkg].
  rewrite HF. unfold rest_prog. rewrite Henc. cbn [lift]. rewrite arun_bind, arun_ret. cbv beta iota.
  rewrite arun_bind, arun_bind, Hdec. cbv beta iota. rewrite arun_bind.
  unfold process_gossip_headers. rewrite arun_bind. unfold get_gossip_headers_from_msg. rewrite Hd. cbn [lift]. rewrite arun_ret. cbv beta iota.
  rewrite arun_bind. match goal with |- context [arun (foldM ?f ?l ?z) s2] => change (arun (foldM f l z) s2 = (s3, Ok (d', pr'))) in F1 end. rewrite F1. cbv beta iota. rewrite arun_ret. cbv beta iota.
  rewrite arun_bind, arun_own_keyhandle, Hkg. cbv beta iota. rewrite !arun_ret. cbn [snd]. eexists. split; [reflexivity|]. cbn. auto.
Qed.
End Gossip.
