(** From one mail to the next: proofs of C64. *)
From Verif Require Import Base PyStr Base64 Env Prog Chain Gpg Mime States Recommendation Account Cmdline Bot Fs Api Steps StepFacts Exec ApiScope Spec Obs PeerSpec PeerFacts RecSpec RecProofs HeaderSpec HeaderProofs OutSpec OutProofs Incoming PeerProofs PeerProofs2 PeerProofs3 PeerProofs4 OutProofs2 TalkSpec.

Section TalkProofs.
Context {E : Env}.

(** ** C64 *)
Lemma outer_all m n : mem_text (lower n) mime_headers = false ->
  map snd (filter (fun kv => text_eqb (lower (fst kv)) (lower n)) (outer_headers m)) = hget_all m n.
Proof.
  intros Hn. unfold hget_all, outer_headers. rewrite filter_filter. f_equal. apply filter_ext. intros [k v]. unfold named. cbn [fst].
  destruct (text_eqb_spec (lower k) (lower n)) as [->|]; [rewrite Hn; reflexivity|apply andb_false_r].
Qed.
Lemma out_headers s a m o : reachable s -> answer s (AOutgoing a m) = Ok (OOutgoing o) ->
  (forall n, mem_text (lower n) mime_headers = false -> lower n <> lower (L "ENCRYPT") -> lower n <> lower (L "Autocrypt") ->
     hget_all (out_msg o) n = hget_all m n) /\
  (get_content_type (out_msg o) = get_content_type m \/ get_content_type (out_msg o) = L "multipart/encrypted").
Proof.
  intros Hr H. pose proof (reachable_WF s Hr) as Hw. apply answer_outgoing in H as [He H]; [|exact Hr].
  apply outgoing_ok in H as [_ [_ [_ [s1 [m2 [Hr1 [Hg [Hp [_ Hway]]]]]]]]]; [|exact Hr|exact He].
  assert (Hplain : out_msg o = m2 ->   (forall n, mem_text (lower n) mime_headers = false -> lower n <> lower (L "ENCRYPT") -> lower n <> lower (L "Autocrypt") ->
     hget_all (out_msg o) n = hget_all m n) /\
  (get_content_type (out_msg o) = get_content_type m \/ get_content_type (out_msg o) = L "multipart/encrypted")).
  { intros ->. split; [intros n H1 H2 H3; apply (prepared_hget_all m _ m2 n Hp); assumption|].
    left. unfold get_content_type. rewrite !hget_hd, (prepared_hget_all m _ m2 _ Hp) by discriminate. reflexivity. }
  destruct Hway as [[H1 [H2 H3]]|[H1 [f [r [H2 [H3 [[H4 [H5 H6]]|[H4 [H5 [khs H6]]]]]]]]]]; [auto|auto|].
  apply seal with (1 := Hw) in H6; auto. destruct H6 as [c [own [khs' [gs [clear [data [enc [O1 [O2 [O3 [O4 [O5 [O6 [O7 [O8 O9]]]]]]]]]]]]]]].
  split.
  - intros n K1 K2 K3. rewrite (hget_all_headers _ _ n O9).
    rewrite <- (outer_all m n K1). cbn [filter fst].
    destruct (text_eqb_spec (lower (L "Content-Type")) (lower n)) as [Hc|Hc]; [rewrite <- Hc in K1; discriminate|].
    rewrite filter_app, filter_without.
    + destruct (out_added o); cbn [filter fst]; [|rewrite app_nil_r; reflexivity].
      destruct (text_eqb_spec (lower (L "Autocrypt")) (lower n)); [congruence|]. rewrite app_nil_r. reflexivity.
    + intros k v Hk. cbn [fst]. apply text_eqb_neq. congruence.
  - right. destruct (out_msg o) as [h b]. cbn [m_headers] in O9. subst h. reflexivity.
Qed.

Lemma sender_delivered m r o : hget_all r (L "From") = hget_all o (L "From") -> hget_all o (L "From") = hget_all m (L "From") -> sender_of r = sender_of m.
Proof. intros H1 H2. unfold sender_of, from_addr. rewrite !hget_hd. congruence. Qed.

Theorem c64_sent : forall s a m o, reachable s -> answer s (AOutgoing a m) = Ok (OOutgoing o) ->
  hget_all m (L "Autocrypt") = [] -> (length (getaddresses (hget_all m (L "From"))) <= 1)%nat ->
  get_content_type m <> L "multipart/report" -> plain_address (sender_of m) ->
  exists c kh key, own_of s a = Some (c, kh) /\ own_public_key s (after s (AOutgoing a m)) kh key /\
    (is_bytes key = true -> key <> [] -> forall r, delivered (out_msg o) r ->
       sender_of r = sender_of m /\ hget r (L "Date") = hget m (L "Date") /\ carries r key (cf_pref c)).
Proof.
  intros s a m o Hr H Hn Hone Hct [Hx1 Hx2].
  destruct (c32_added s a m o Hr H Hn) as [v [c [kh [key [Hv [Ho [Hk [_ Hparse]]]]]]]].
  destruct (out_headers s a m o Hr H) as [Hh Ht].
  exists c, kh, key. split; [exact Ho|]. split; [exact Hk|]. intros Hb Hne r [D1 [D2 [D3 D4]]].
  pose proof (Hh (L "From") eq_refl ltac:(discriminate) ltac:(discriminate)) as Hf.
  pose proof (Hh (L "Date") eq_refl ltac:(discriminate) ltac:(discriminate)) as Hd.
  pose proof (sender_delivered m r (out_msg o) D1 Hf) as Hs.
  split; [exact Hs|]. split; [rewrite D3, !hget_hd, Hd; reflexivity|].
  split; [rewrite D4; destruct Ht as [-> | ->]; [exact Hct|discriminate]|].
  split; [rewrite D1, Hf; exact Hone|].
  exists [], v, []. rewrite D2, Hv, Hs. split; [reflexivity|]. split; [|intros w []].
  exists []. apply Hparse; assumption.
Qed.

Theorem c64_received : forall s b x v r ign nd d key kh pref i, reachable s -> peer_of s b x = Some v ->
  sender_of r = norm x -> dated r d -> (pv_ac_timestamp v < Z.min d (clock (a_tick s)))%Z ->
  carries r key pref -> key <> [] -> imports_as b key kh -> kh <> [] ->
  answer s (AIncoming b r ign nd) = Ok (OIncoming (Some i)) ->
  knows (after s (AIncoming b r ign nd)) b x key kh pref (Z.min d (clock (a_tick s))).
Proof.
  intros s a x v m ign nd d key h pref i Hr Hv Hs Hd Hlt Hc Hne Himp Hh Hans.
  pose proof (reachable_WF s Hr) as Hw. destruct (peer_of_some s a x v Hw Hv) as [He ->].
  pose proof (exists_isalnum s a Hw He) as Ha.
  assert (He' : exists_acct (after s (AIncoming a m ign nd)) a) by (apply after_exists; auto).
  destruct (answer_incoming s a m ign nd Hw He) as [Haft HA]. rewrite HA in Hans. clear HA.
  destruct (incoming_effect a m ign nd s Hw He) as [e Hl Hr1|Hl Hr1 Hi Hm|d1 p q1 kh p' ls Hd1 Hp Hi Hl1 Hn Hpath HF Hr1];
    [rewrite Hr1 in Hans; discriminate|rewrite Hr1 in Hans; discriminate|].
  unfold dated in *. rewrite Hd in Hd1. injection Hd1 as <-.
  apply carries_parse in Hc. destruct Hc as [Hvp [ex Hc]]. rewrite Hp in Hc. injection Hc as ->.
  rewrite (import_run_kh a _ _ _ _ _ key h Hi eq_refl eq_refl Himp) in *.
  pose proof (gossip_path_msgs a m nd _ _ _ _ Hpath HF a (norm x) Ha) as Hms. rewrite <- Haft in Hms.
  rewrite Hs in Hms. cbn [p_pref p_keydata] in Hms. 
  match type of Hms with _ = msg_entries (peer_log (step (LMsg _ _ ?i ?d ?p ?k ?h) ?q) _ ?y) => rewrite (proj1 (step_msg_log q a y i d p k h y)), text_eqb_refl, (logs_peer s q a y Hl1) in Hms end.
  set (dt := Z.min d (clock (a_tick s))) in *. set (l := peer_log s a (norm x)) in *.
  unfold knows. eexists. split; [apply peer_of_spec; auto; apply WF_after; exact Hw|].
  set (s' := after s _) in *.
  assert (Hpk : peer_ok l) by (apply (wf_peer s Hw)).
  assert (Hms' : msg_entries (peer_log s' a (norm x)) = MsgEntry (msg_id_text m) dt pref key h :: msg_entries l).
  { rewrite Hms. unfold decide_msgs, msg_decide. change (pv_ac_timestamp _) with (autocrypt_timestamp l) in Hlt.
    destruct (Z.ltb_spec dt (autocrypt_timestamp l)); [lia|]. cbv zeta.
    destruct (match get_message_entry l (msg_id_text m) with Some _ => _ | None => _ end) eqn:Edup.
    { exfalso. destruct (get_message_entry l (msg_id_text m)) as [e|] eqn:Eg; [|discriminate].
      apply get_message_In in Eg. destruct Eg as [Hie _]. do 2 (apply andb_prop in Edup; destruct Edup as [Edup _]).
      apply andb_prop in Edup. destruct Edup as [Ed Ek]. apply Z.eqb_eq in Ed. cbn [eq_opt] in Ek. apply text_eqb_eq in Ek.
      pose proof (peer_ok_ac_max l e Hpk Hie) as Hmax. apply nonempty_true in Hne. rewrite Ek in Hmax. specialize (Hmax Hne). lia. }
    apply nonempty_true in Hne. rewrite Hne. cbn [negb]. unfold mk_msg_entry. rewrite Hvp. reflexivity. }
  apply nonempty_true in Hne. apply nonempty_true in Hh.
  unfold view_of. cbn [pv_keydata pv_keyhandle pv_pref pv_direct pv_ac_timestamp pv_last_seen].
  unfold public_keydata, public_keyhandle, peer_prefer_encrypt, entry_for_encryption, has_direct_key, autocrypt_timestamp, last_seen, latest_msg_entry, latest_ac_entry.
  rewrite Hms'. cbn [find me_keydata]. rewrite Hne. cbn [me_kh]. rewrite Hh. cbn. auto 8.
Qed.

Theorem c64_recommended : forall s b x key kh pref d c kb, reachable s -> own_of s b = Some (c, kb) ->
  knows s b (norm x) key kh pref d -> kh <> [] ->
  recommended s b [x] false (if text_eqb (cf_pref c) mutual && text_eqb pref mutual then L "encrypt" else L "available") /\
  recommended s b [x] true (L "encrypt").
Proof.
  intros s b x key kh pref d c kb Hr Ho [v [Hv [H1 [H2 [H3 [H4 [H5 H6]]]]]]] Hk.
  assert (Hn : text_eqb kh [] = false) by (apply text_eqb_neq; exact Hk).
  pose proof (c20 s b c kb x v false Hr Ho Hv) as Hf. pose proof (c20 s b c kb x v true Hr Ho Hv) as Ht.
  unfold advice in Hf, Ht. rewrite H2, Hn in Hf, Ht. split; [|exact Ht].
  unfold up_to_date in Hf. rewrite H3, H4, H5, H6, Z.sub_diag, Z.eqb_refl, andb_true_r in Hf. exact Hf.
Qed.
Theorem c64_encrypted : forall s b x key kh pref d m o, reachable s ->
  knows s b (norm x) key kh pref d -> kh <> [] ->
  answer s (AOutgoing b m) = Ok (OOutgoing o) -> In x (targets m) -> is_encrypted m = Ok false -> is_encrypted (out_msg o) = Ok true ->
  exists c own khs data enc, own_of s b = Some (c, own) /\ gpg_encrypted s (after s (AOutgoing b m)) khs own data enc /\
    m_body (out_msg o) = pgp_body enc /\ In kh khs.
Proof.
  intros s b x key kh pref d m o Hr [v [Hv [_ [H2 _]]]] Hk H Hx Hm Ho.
  destruct (c33 s b m o Hr H Hm Ho) as [c [own [khs [data [enc [K1 [K2 [K3 [K4 _]]]]]]]]].
  exists c, own, khs, data, enc. do 3 (split; [assumption|]). destruct (K4 x (or_introl Hx)) as [kh' [[v' [Hv' Hu]] Hin]].
  rewrite Hv in Hv'. injection Hv' as <-. rewrite H2 in Hu. destruct Hu as [[_ ->]|[Hu _]]; [exact Hin|congruence].
Qed.

(** both ends together *)
Theorem c64_exchange : forall s a m o, reachable s -> answer s (AOutgoing a m) = Ok (OOutgoing o) ->
  hget_all m (L "Autocrypt") = [] -> (length (getaddresses (hget_all m (L "From"))) <= 1)%nat ->
  get_content_type m <> L "multipart/report" -> plain_address (sender_of m) ->
  exists c kh key, own_of s a = Some (c, kh) /\ own_public_key s (after s (AOutgoing a m)) kh key /\
    (is_bytes key = true -> key <> [] -> forall s2 b x v r ign nd d kh2 i, reachable s2 -> peer_of s2 b x = Some v ->
       sender_of m = norm x -> dated m d -> (pv_ac_timestamp v < Z.min d (clock (a_tick s2)))%Z ->
       delivered (out_msg o) r -> imports_as b key kh2 -> kh2 <> [] ->
       answer s2 (AIncoming b r ign nd) = Ok (OIncoming (Some i)) ->
       knows (after s2 (AIncoming b r ign nd)) b x key kh2 (cf_pref c) (Z.min d (clock (a_tick s2)))).
Proof.
  intros s a m o Hr H H1 H2 H3 H4. destruct (c64_sent s a m o Hr H H1 H2 H3 H4) as [c [kh [key [K1 [K2 K3]]]]].
  exists c, kh, key. do 2 (split; [assumption|]). intros Hb Hne s2 b x v r ign nd d kh2 i Hr2 Hv Hs Hd Hlt Hdel Himp Hk Hans.
  destruct (K3 Hb Hne r Hdel) as [J1 [J2 J3]]. eapply c64_received; eauto; [congruence|]. unfold dated in *. rewrite J2. exact Hd.
Qed.

(** ** C66 *)
Lemma rec_peers_spec a addrs : NoDup (dkeys (rec_peers a (map Some addrs) None)) /\
  forall y c, In (y, c) (rec_peers a (map Some addrs) None) <-> (exists x, In x addrs /\ norm x = y) /\ c = peerstate_chain a y.
Proof.
  unfold rec_peers. rewrite map_map. change (fun x => parse_email_addr (Some x)) with norm.
  assert (H : forall l (d : dict text), NoDup (dkeys d) -> (forall y c, In (y, c) d -> c = peerstate_chain a y) ->
     let d' := fold_left (fun d x => if otext_eqb (Some x) None then d else dset d x (peerstate_chain a x)) l d in
     NoDup (dkeys d') /\ (forall y c, In (y, c) d' -> c = peerstate_chain a y) /\ forall y, In y (dkeys d') <-> In y l \/ In y (dkeys d)).
  { induction l as [|x l IH]; intros d H1 H2; cbv zeta; cbn [fold_left].
    - split; [exact H1|]. split; [exact H2|]. intros y. cbn. tauto.
    - change (otext_eqb (Some x) None) with false. cbv iota.
      destruct (IH (dset d x (peerstate_chain a x))) as [I1 [I2 I3]].
      + apply dset_NoDup, H1.
      + intros y c Hy. apply In_dset in Hy as [Hy|Hy]; [congruence|auto].
      + split; [exact I1|]. split; [exact I2|]. intros y. rewrite I3, dkeys_dset_In. cbn [In]. intuition congruence. }
  destruct (H (map norm addrs) [] (NoDup_nil _)) as [I1 [I2 I3]]; [intros y c []|]. cbv zeta in *.
  split; [exact I1|]. intros y c. split.
  - intros Hi. split; [|eapply I2; eauto]. assert (Hy : In y (map norm addrs)).
    { destruct (proj1 (I3 y)) as [Hy|[]]; [|exact Hy]. unfold dkeys. apply in_map_iff. exists (y, c). auto. }
    apply in_map_iff in Hy as [x [Hx1 Hx2]]. eauto.
  - intros [[x [Hx <-]] ->]. assert (Hk : In (norm x) (dkeys (fold_left (fun d x => if otext_eqb (Some x) None then d else dset d x (peerstate_chain a x)) (map norm addrs) []))).
    { apply I3. left. apply in_map, Hx. }
    unfold dkeys in Hk. apply in_map_iff in Hk as [[y c] [Hy1 Hy2]]. cbn [fst] in Hy1. subst y. rewrite <- (I2 _ _ Hy2). exact Hy2.
Qed.
Lemma target_run s (d : dict text) : arun (target_keyhandles d) s = (s, Ok (map (fun p => (fst p, public_keyhandle (alog s (snd p)))) d)).
Proof.
  unfold target_keyhandles. induction d as [|[y c] d IH]; cbn [mapM map fst snd]; [reflexivity|].
  rewrite arun_bind. change (arun (l <- perform (CRead c) ;; Ret (y, public_keyhandle l)) s) with (s, Ok (y, public_keyhandle (alog s c))).
  cbv iota beta. rewrite arun_bind, IH. reflexivity.
Qed.
Theorem c66_handles : forall s a xs, reachable s -> has_account s a ->
  exists l, arun (target_keyhandles (rec_peers a (map Some xs) None)) s = (s, Ok l) /\ NoDup (map fst l) /\
    forall y kh, In (y, kh) l <-> (exists x, In x xs /\ norm x = y) /\ exists v, peer_of s a y = Some v /\ pv_keyhandle v = kh.
Proof.
  intros s a xs Hr Ha. pose proof (reachable_WF s Hr) as Hw. assert (He : exists_acct s a) by (apply has_account_exists; auto).
  destruct (rec_peers_spec a xs) as [H1 H2]. eexists. split; [apply target_run|]. split; [rewrite map_map; exact H1|].
  assert (Hp : forall y, exists v, peer_of s a y = Some v /\ pv_keyhandle v = public_keyhandle (alog s (peerstate_chain a y))).
  { intros y. eexists. split; [apply peer_of_spec; auto|]. reflexivity. }
  intros y kh. rewrite in_map_iff. split.
  - intros [[z c] [Hz Hi]]. cbn [fst snd] in Hz. injection Hz as <- <-. apply H2 in Hi as [Hx ->]. split; [exact Hx|apply Hp].
  - intros [Hx [v [Hv Hk]]]. exists (y, peerstate_chain a y). cbn [fst snd]. destruct (Hp y) as [v' [Hv' Hk']]. split; [congruence|]. apply H2. auto.
Qed.
Theorem c66_encrypted : forall s a m xs em khs l, reachable s -> answer s (AEncrypt a m xs) = Ok (OEncrypted em khs) ->
  arun (target_keyhandles (rec_peers a (map Some xs) None)) s = (s, Ok l) ->
  Forall2 (fun x kh => In (norm x, kh) l /\ kh <> [] \/
    In (norm x, []) l /\ exists c, own_of s a = Some (c, kh) /\ re_match (cf_regex c) (norm x) = Ok true) xs khs.
Proof.
  intros s a m xs em khs l Hr H Hl. pose proof (reachable_WF s Hr) as Hw. pose proof H as H'. apply answer_encrypt in H' as [He Hrun]; [|exact Hr].
  destruct (exists_own s a Hw He) as [c [own Ho]]. apply (encrypt_mime_ok s _ a m xs em khs own c Hw Ho) in Hrun as [_ [K _]].
  destruct (c66_handles s a xs Hr) as [l' [Hl' [_ Hin]]]; [apply has_account_exists; auto|]. rewrite Hl in Hl'. injection Hl' as <-.
  assert (G : forall ys ks, Forall2 (fun x => key_in_use s a (norm x)) ys ks -> incl ys xs ->
    Forall2 (fun x kh => In (norm x, kh) l /\ kh <> [] \/
      In (norm x, []) l /\ exists c, own_of s a = Some (c, kh) /\ re_match (cf_regex c) (norm x) = Ok true) ys ks); [|apply (G xs khs K), incl_refl].
  clear K H. induction 1 as [|x kh ys khs' Hx K IH]; intros Hsub; constructor.
  - destruct Hx as [v [Hv [[Hne ->]|[Hz [c' [Hc Hm]]]]]].
    + left. split; [|exact Hne]. apply Hin. split; [exists x; split; [apply Hsub; left; reflexivity|reflexivity]|eauto].
    + right. split; [|eauto]. apply Hin. split; [exists x; split; [apply Hsub; left; reflexivity|reflexivity]|eauto].
  - apply IH. intros y Hy. apply Hsub. right. exact Hy.
Qed.
End TalkProofs.
