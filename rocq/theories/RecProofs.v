(** Proofs for C20-C23. *)
From Verif Require Import Base PyStr Env Prog Chain Gpg Mime States Recommendation Account Cmdline Bot Fs Api Steps StepFacts Exec ApiScope Spec Obs PeerSpec PeerFacts RecSpec.

Lemma rank_fun r n m : rank r n -> rank r m -> n = m.
Proof. intros H1 H2. inversion H1; subst; inversion H2; congruence. Qed.
Lemma rank_inj r q n : rank r n -> rank q n -> r = q.
Proof. intros H1 H2. inversion H1; subst; inversion H2; congruence. Qed.

Section RecProofs.
Context {E : Env}.
Open Scope Z_scope.

(** ** One peer *)
Lemma peer_ok_uptodate l : peer_ok l -> has_direct_key l = true ->
  exists e, latest_msg_entry l = Some e /\ nonempty (me_keydata e) = Z.eqb (last_seen l) (autocrypt_timestamp l).
Proof.
  intros Hok. induction Hok as [|t id d p kd kh l Hok IH Hts Hkd Hp|t id d l Hok IH Hts Hls|t id d kd kh l Hok IH Hts Hkd].
  - discriminate.
  - intros _. eexists. split; [reflexivity|]. cbn [me_keydata].
    unfold last_seen, autocrypt_timestamp, latest_msg_entry, latest_ac_entry. cbn. rewrite Hkd. cbn. rewrite Z.eqb_refl. reflexivity.
  - intros _. eexists. split; [reflexivity|]. cbn [me_keydata].
    change (autocrypt_timestamp (Block t (EMsg (MsgEntry id d (L "nopreference") [] [])) :: l)) with (autocrypt_timestamp l).
    change (last_seen (Block t (EMsg (MsgEntry id d (L "nopreference") [] [])) :: l)) with d.
    pose proof (peer_ok_seen l Hok). symmetry. apply Z.eqb_neq. lia.
  - intros H. exact (IH H).
Qed.

Lemma peer_recommendation_advice own reply n l : peer_ok l ->
  peer_recommendation own reply l = Ok (advice own reply (view_of n l)).
Proof.
  intros Hok. unfold peer_recommendation, advice. cbn [view_of pv_keyhandle pv_direct pv_last_seen pv_ac_timestamp pv_pref].
  unfold preliminary. change timeout with days35. unfold up_to_date. cbn [pv_last_seen pv_ac_timestamp].
  destruct (public_keyhandle l) as [|k0 kr] eqn:Ek; cbn [nonempty negb].
  - reflexivity.
  - change (text_eqb (k0 :: kr) []) with false. cbv iota.
    destruct (has_direct_key l) eqn:Hd; cbn [negb].
    + destruct (days35 <? last_seen l - autocrypt_timestamp l) eqn:Et.
      * destruct reply; reflexivity.
      * destruct reply; [reflexivity|].
        change (text_eqb (L "available") (L "available")) with true. change (text_eqb (L "available") (L "discourage")) with false.
        cbn [orb andb]. change mutual with (L "mutual").
        destruct (text_eqb own (L "mutual") && text_eqb (peer_prefer_encrypt l) (L "mutual")); [|reflexivity].
        destruct (peer_ok_uptodate l Hok Hd) as [e [He Hk]]. rewrite He, Hk. cbn [andb].
        cbn [view_of pv_last_seen pv_ac_timestamp]. destruct (last_seen l =? autocrypt_timestamp l); reflexivity.
    + destruct reply; reflexivity.
Qed.

(** ** The peers asked *)
Lemma In_dset {V} (d : dict V) k v q : In q (dset d k v) -> q = (k, v) \/ In q d.
Proof.
  induction d as [|[k' v'] d IH]; simpl; [intuition|]. destruct (text_eqb_spec k k') as [->|Hn]; simpl; intuition.
Qed.
Lemma In_snd_dkeys {V} (d : dict V) (f : text -> V) : (forall k v, In (k, v) d -> v = f k) -> forall v, In v (map snd d) <-> exists k, In k (dkeys d) /\ v = f k.
Proof.
  intros H v. unfold dkeys. rewrite in_map_iff. split.
  - intros [[k w] [Hw Hi]]. simpl in Hw. subst w. exists k. split; [apply in_map_iff; exists (k, v); auto|apply H; exact Hi].
  - intros [k [Hk ->]]. apply in_map_iff in Hk. destruct Hk as [[k' w] [Hk Hi]]. simpl in Hk. subst k'.
    exists (k, w). split; [simpl; apply H; exact Hi|exact Hi].
Qed.
(** the addresses asked about *)
Definition asked (addrs : list (option text)) (from : option text) : list text :=
  filter (fun x => negb (otext_eqb (Some x) from)) (map parse_email_addr addrs).
Lemma rec_peers_In a addrs from c : In c (map snd (rec_peers a addrs from)) <->
  exists x, In x (asked addrs from) /\ c = peerstate_chain a x.
Proof.
  unfold rec_peers, asked.
  assert (H : forall l d, (forall k v, In (k, v) d -> v = peerstate_chain a k) ->
    let d' := fold_left (fun d x => if otext_eqb (Some x) from then d else dset d x (peerstate_chain a x)) l d in
    (forall k v, In (k, v) d' -> v = peerstate_chain a k) /\
    forall k, In k (dkeys d') <-> In k (dkeys d) \/ In k (filter (fun x => negb (otext_eqb (Some x) from)) l)).
  { induction l as [|x l IH]; intros d Hd; cbn [fold_left filter].
    - cbn. split; [exact Hd|]. intros k. tauto.
    - destruct (otext_eqb (Some x) from) eqn:Ex; cbn [negb].
      + apply IH. exact Hd.
      + specialize (IH (dset d x (peerstate_chain a x))). destruct IH as [H1 H2].
        * intros k v Hi. apply In_dset in Hi. destruct Hi as [[= -> ->]|Hi]; [reflexivity|apply Hd; exact Hi].
        * split; [exact H1|]. intros k. rewrite H2, dkeys_dset_In. simpl. intuition. }
  specialize (H (map parse_email_addr addrs) []). cbv zeta in H. destruct H as [H1 H2]; [intros k v []|].
  rewrite (In_snd_dkeys _ (peerstate_chain a) H1). split; intros [x [Hx ->]]; exists x; (split; [|reflexivity]); [apply H2 in Hx; destruct Hx as [[]|Hx]; exact Hx|].
  apply H2. right. exact Hx.
Qed.

(** ** The aggregate *)
Definition four : list text := [L "disable"; L "discourage"; L "available"; L "encrypt"].
Lemma rank_four r : In r four <-> exists n, rank r n.
Proof.
  split.
  - intros [<-|[<-|[<-|[<-|[]]]]]; eexists; constructor.
  - intros [n H]. inversion H; simpl; tauto.
Qed.
Lemma find_four recs : recs <> [] -> (forall r, In r recs -> In r four) ->
  exists r n, find (fun r => mem_text r recs) four = Some r /\ In r recs /\ rank r n /\
    forall q m, In q recs -> rank q m -> (n <= m)%nat.
Proof.
  intros Hne H4. unfold four in *. cbn [find].
  destruct (mem_text (L "disable") recs) eqn:E0.
  { exists (L "disable"), 0%nat. split; [reflexivity|]. split; [apply mem_text_In; exact E0|]. split; [constructor|]. intros; lia. }
  destruct (mem_text (L "discourage") recs) eqn:E1.
  { exists (L "discourage"), 1%nat. split; [reflexivity|]. split; [apply mem_text_In; exact E1|]. split; [constructor|].
    intros q m Hq Hr. apply mem_text_nIn in E0. inversion Hr; subst; try lia; tauto. }
  destruct (mem_text (L "available") recs) eqn:E2.
  { exists (L "available"), 2%nat. split; [reflexivity|]. split; [apply mem_text_In; exact E2|]. split; [constructor|].
    intros q m Hq Hr. apply mem_text_nIn in E0. apply mem_text_nIn in E1. inversion Hr; subst; try lia; tauto. }
  destruct (mem_text (L "encrypt") recs) eqn:E3.
  { exists (L "encrypt"), 3%nat. split; [reflexivity|]. split; [apply mem_text_In; exact E3|]. split; [constructor|].
    intros q m Hq Hr. apply mem_text_nIn in E0. apply mem_text_nIn in E1. apply mem_text_nIn in E2. inversion Hr; subst; try lia; tauto. }
  exfalso. destruct recs as [|q recs]; [congruence|].
  apply mem_text_nIn in E0. apply mem_text_nIn in E1. apply mem_text_nIn in E2. apply mem_text_nIn in E3.
  specialize (H4 q (or_introl eq_refl)). simpl in H4. destruct H4 as [<-|[<-|[<-|[<-|[]]]]]; simpl in *; tauto.
Qed.
Lemma advice_rank own reply v : exists n, rank (advice own reply v) n.
Proof.
  unfold advice. repeat match goal with |- context [if ?b then _ else _] => destruct b end; eexists; constructor.
Qed.

(** ** Running recommend *)
Definition advice_for (s : ast) (own : text) (reply : bool) (n : text) : text := advice own reply (view_of n (alog s n)).
Lemma mapM_recs s own reply ns : (forall n, In n ns -> peer_ok (alog s n)) ->
  arun (mapM (fun c => l <- perform (CRead c) ;; lift (peer_recommendation own reply l)) ns) s
  = (s, Ok (map (advice_for s own reply) ns)).
Proof.
  induction ns as [|n ns IH]; intros H; cbn [mapM map]; [reflexivity|].
  rewrite arun_bind.
  assert (H1 : arun (l <- perform (CRead n) ;; lift (peer_recommendation own reply l)) s = (s, Ok (advice_for s own reply n))).
  { unfold arun. cbn [bind perform run astep]. rewrite (peer_recommendation_advice own reply n) by (apply H; left; reflexivity). reflexivity. }
  rewrite H1, arun_bind, IH by (intros; apply H; right; assumption). reflexivity.
Qed.

(** what comes out: the most cautious advice, or that for no recipients *)
Definition overall (s : ast) (a own : text) (reply : bool) (xs : list text) (r : text) : Prop :=
  match xs with
  | [] => r = if text_eqb own mutual then L "encrypt" else L "available"
  | _ => exists n x, In x xs /\ r = advice_for s own reply (peerstate_chain a x) /\ rank r n /\
         forall y m, In y xs -> rank (advice_for s own reply (peerstate_chain a y)) m -> (n <= m)%nat
  end.

Lemma wf_pref s a c : WF s -> config_of s a = Some c -> valid_pref (cf_pref c) = true.
Proof.
  intros Hw Hc. destruct (wf_own s Hw a) as [H0|[_ H0]].
  - unfold config_of in Hc. rewrite H0 in Hc. discriminate.
  - apply own_ok_config in H0. destruct H0 as [c' [H1 [H2 _]]]. unfold config_of in Hc. rewrite H1 in Hc. injection Hc as <-.
    unfold valid_cfg in H2. apply andb_prop in H2. tauto.
Qed.

Lemma recommend_run s a c addrs reply from : WF s -> config_of s a = Some c ->
  exists r, arun (recommend a addrs reply from) s = (s, Ok (Some r)) /\
    overall s a (cf_pref c) reply (asked addrs from) r.
Proof.
  intros Hw Hc. unfold recommend. rewrite arun_bind, arun_own_config, Hc.
  unfold ui_recommendation. rewrite arun_bind.
  pose proof (rec_peers_In a addrs from) as Hin. set (ns := map snd (rec_peers a addrs from)) in *.
  rewrite mapM_recs.
  2:{ intros n Hn. apply Hin in Hn. destruct Hn as [x [_ ->]]. apply (wf_peer s Hw). }
  destruct (asked addrs from) as [|x0 xs] eqn:Ea.
  - assert (Hns : ns = []) by (destruct ns as [|n ns']; [reflexivity|]; destruct (proj1 (Hin n) (or_introl eq_refl)) as [x [[] _]]).
    rewrite Hns. cbn [map aggregate overall]. pose proof (wf_pref s a c Hw Hc) as Hp. unfold valid_pref in Hp.
    apply mem_text_In in Hp. destruct Hp as [<-|[<-|[]]]; eexists; split; reflexivity.
  - assert (Hns : ns <> []).
    { intros H0. assert (Hx : In (peerstate_chain a x0) ns) by (apply Hin; exists x0; simpl; auto). rewrite H0 in Hx. destruct Hx. }
    destruct (find_four (map (advice_for s (cf_pref c) reply) ns)) as [r [n [H1 [H2 [H3 H4]]]]].
    { destruct ns; [congruence|discriminate]. }
    { intros r Hr. apply in_map_iff in Hr. destruct Hr as [m [<- _]]. apply rank_four. apply advice_rank. }
    exists r. split.
    + unfold aggregate. destruct ns as [|n0 ns']; [congruence|]. cbn [map]. cbn [map] in H1. fold four. rewrite H1. reflexivity.
    + cbn [overall]. apply in_map_iff in H2. destruct H2 as [m [Hm Hm2]]. apply Hin in Hm2. destruct Hm2 as [x [Hx ->]].
      exists n, x. split; [exact Hx|]. split; [auto|]. split; [exact H3|].
      intros y q Hy Hq. apply (H4 _ q) in Hq; [exact Hq|]. apply in_map. apply Hin. exists y. auto.
Qed.

Lemma asked_all xs : asked (map Some xs) None = map norm xs.
Proof.
  unfold asked. rewrite map_map. induction xs as [|x xs IH]; [reflexivity|]. cbn [map filter]. change (otext_eqb (Some (parse_email_addr (Some x))) None) with false. cbn [negb]. f_equal. exact IH.
Qed.

Lemma recommended_run s a c kh xs reply : reachable s -> own_of s a = Some (c, kh) ->
  after s (ARecommend a xs reply) = s /\
  exists r, answer s (ARecommend a xs reply) = Ok (OOptText (Some r)) /\
    overall s a (cf_pref c) reply (map norm xs) r.
Proof.
  intros Hr Ho. pose proof (reachable_WF s Hr) as Hw.
  assert (He : exists_acct s a) by (apply has_account_exists; [exact Hw|unfold has_account; congruence]).
  assert (Hc : config_of s a = Some c).
  { rewrite own_of_spec in Ho by exact Hw. destruct (config_of s a), (keygen_of s a); congruence. }
  destruct (recommend_run s a c (map Some xs) reply None Hw Hc) as [r [H1 H2]]. rewrite asked_all in H2.
  unfold after, answer. cbn [exec]. rewrite arun_with_account by auto. rewrite arun_bind, H1. cbn [fst snd].
  split; [reflexivity|]. exists r. split; [reflexivity|exact H2].
Qed.

(** what is reported about a recipient *)
Lemma peer_advice s a x v own reply : reachable s -> peer_of s a (norm x) = Some v ->
  advice own reply v = advice_for s own reply (peerstate_chain a (norm x)).
Proof.
  intros Hr Hv. pose proof (reachable_WF s Hr) as Hw. apply peer_of_some in Hv; [|exact Hw]. destruct Hv as [_ ->]. reflexivity.
Qed.

Theorem c20 : forall s a c kh x v reply, reachable s -> own_of s a = Some (c, kh) -> peer_of s a (norm x) = Some v ->
  recommended s a [x] reply (advice (cf_pref c) reply v).
Proof.
  intros s a c kh x v reply Hr Ho Hv. unfold recommended.
  destruct (recommended_run s a c kh [x] reply Hr Ho) as [_ [r [H1 H2]]]. rewrite H1.
  cbn [map overall] in H2. destruct H2 as [n [y [[<-|[]] [-> _]]]]. rewrite <- (peer_advice s a x v _ _ Hr Hv). reflexivity.
Qed.

Lemma own_peer_of s a c kh x : reachable s -> own_of s a = Some (c, kh) -> exists v, peer_of s a x = Some v.
Proof.
  intros Hr Ho. pose proof (reachable_WF s Hr) as Hw.
  rewrite peer_of_spec; [eauto|exact Hw|]. apply has_account_exists; [exact Hw|unfold has_account; congruence].
Qed.

(** the most cautious of the individual recommendations *)
Theorem c21_min : forall s a xs reply, reachable s -> has_account s a -> xs <> [] ->
  exists r n, recommended s a xs reply r /\ rank r n /\
    (exists x, In x xs /\ recommended s a [x] reply r) /\
    forall x q m, In x xs -> recommended s a [x] reply q -> rank q m -> (n <= m)%nat.
Proof.
  intros s a xs reply Hr Ho Hxs. unfold has_account in Ho. destruct (own_of s a) as [[c kh]|] eqn:Eo; [|congruence].
  destruct (recommended_run s a c kh xs reply Hr Eo) as [_ [r [H1 H2]]].
  destruct xs as [|x0 xs']; [congruence|]. remember (x0 :: xs') as xs eqn:Exs.
  assert (H3 : exists n x, In x (map norm xs) /\ r = advice_for s (cf_pref c) reply (peerstate_chain a x) /\ rank r n /\
         forall y m, In y (map norm xs) -> rank (advice_for s (cf_pref c) reply (peerstate_chain a y)) m -> (n <= m)%nat).
  { subst xs. exact H2. }
  destruct H3 as [n [y [Hy [-> [H4 H5]]]]]. apply in_map_iff in Hy. destruct Hy as [x [<- Hx]].
  exists (advice_for s (cf_pref c) reply (peerstate_chain a (norm x))), n.
  split; [exact H1|]. split; [exact H4|]. split.
  - exists x. split; [exact Hx|]. destruct (own_peer_of s a c kh (norm x) Hr Eo) as [v Hv].
    rewrite <- (peer_advice s a x v _ _ Hr Hv). eapply c20; eauto.
  - intros z q m Hz Hq Hm. destruct (own_peer_of s a c kh (norm z) Hr Eo) as [v Hv].
    pose proof (c20 s a c kh z v reply Hr Eo Hv) as Hq2. unfold recommended in *. rewrite Hq2 in Hq. injection Hq as <-.
    apply (H5 (norm z)); [apply in_map; exact Hz|]. rewrite <- (peer_advice s a z v _ _ Hr Hv). exact Hm.
Qed.

(** adding recipients never makes it less cautious; order and repetition do not matter *)
Theorem c21_mono : forall s a xs ys reply r q n m, reachable s -> has_account s a -> xs <> [] -> incl xs ys ->
  recommended s a xs reply r -> recommended s a ys reply q -> rank r n -> rank q m -> (m <= n)%nat.
Proof.
  intros s a xs ys reply r q n m Hr Ho Hxs Hin H1 H2 Hn Hm.
  assert (Hys : ys <> []) by (intros ->; destruct xs; [congruence|]; destruct (Hin t (or_introl eq_refl))).
  destruct (c21_min s a xs reply Hr Ho Hxs) as [r' [n' [H3 [H4 [[x [Hx H5]] _]]]]].
  destruct (c21_min s a ys reply Hr Ho Hys) as [q' [m' [H6 [H7 [_ H8]]]]].
  unfold recommended in *. rewrite H1 in H3. injection H3 as <-. rewrite H2 in H6. injection H6 as <-.
  rewrite (rank_fun _ _ _ Hm H7), (rank_fun _ _ _ Hn H4). eapply H8; [apply Hin; exact Hx|exact H5|exact H4].
Qed.
Theorem c21_set : forall s a xs ys reply, reachable s -> has_account s a -> incl xs ys -> incl ys xs ->
  answer s (ARecommend a xs reply) = answer s (ARecommend a ys reply).
Proof.
  intros s a xs ys reply Hr Ho H1 H2.
  destruct xs as [|x xs'].
  { destruct ys as [|y ys']; [reflexivity|]. destruct (H2 y (or_introl eq_refl)). }
  set (xs := x :: xs') in *.
  assert (Hys : ys <> []) by (intros ->; destruct (H1 x (or_introl eq_refl))).
  assert (Hxs : xs <> []) by discriminate.
  destruct (c21_min s a xs reply Hr Ho Hxs) as [r [n [H3 [H4 _]]]].
  destruct (c21_min s a ys reply Hr Ho Hys) as [q [m [H6 [H7 _]]]].
  pose proof (c21_mono s a xs ys reply r q n m Hr Ho Hxs H1 H3 H6 H4 H7).
  pose proof (c21_mono s a ys xs reply q r m n Hr Ho Hys H2 H6 H3 H7 H4).
  assert (n = m) by lia. subst m. unfold recommended in *. rewrite H3, H6. rewrite (rank_inj r q n H4 H7). reflexivity.
Qed.

Lemma advice_disable own reply v : advice own reply v = L "disable" <-> pv_keyhandle v = [].
Proof.
  unfold advice. destruct (text_eqb_spec (pv_keyhandle v) []) as [He|He]; [tauto|].
  split; [|tauto]. repeat match goal with |- context [if ?b then _ else _] => destruct b end; discriminate.
Qed.
Theorem c21_disable : forall s a xs reply, reachable s -> has_account s a -> xs <> [] ->
  recommended s a xs reply (L "disable") <->
  exists x v, In x xs /\ peer_of s a (norm x) = Some v /\ pv_keyhandle v = [].
Proof.
  intros s a xs reply Hr Ho Hxs.
  pose proof Ho as Ho'. unfold has_account in Ho'. destruct (own_of s a) as [[c kh]|] eqn:Eo; [|congruence]. clear Ho'.
  destruct (c21_min s a xs reply Hr Ho Hxs) as [r [n [H1 [H2 [[x [Hx H3]] H4]]]]]. split.
  - intros H. unfold recommended in *. rewrite H1 in H. injection H as ->.
    destruct (own_peer_of s a c kh (norm x) Hr Eo) as [v Hv]. exists x, v. split; [exact Hx|]. split; [exact Hv|].
    pose proof (c20 s a c kh x v reply Hr Eo Hv) as H5. unfold recommended in H5. rewrite H5 in H3. injection H3 as H3.
    apply advice_disable in H3. exact H3.
  - intros [y [v [Hy [Hv Hk]]]]. pose proof (c20 s a c kh y v reply Hr Eo Hv) as H5.
    rewrite (proj2 (advice_disable (cf_pref c) reply v) Hk) in H5.
    specialize (H4 y (L "disable") 0%nat Hy H5 rk_disable). assert (n = 0%nat) by lia. subst n.
    rewrite (rank_inj _ _ _ rk_disable H2). exact H1.
Qed.
Theorem c21_none : forall s a c kh reply, reachable s -> own_of s a = Some (c, kh) ->
  recommended s a [] reply (if text_eqb (cf_pref c) mutual then L "encrypt" else L "available").
Proof.
  intros s a c kh reply Hr Ho. destruct (recommended_run s a c kh [] reply Hr Ho) as [_ [r [H1 H2]]]. cbn in H2. subst r. exact H1.
Qed.

Theorem c22 : forall s a xs reply, reachable s -> has_account s a ->
  after s (ARecommend a xs reply) = s /\ exists r n, recommended s a xs reply r /\ rank r n.
Proof.
  intros s a xs reply Hr Ho. pose proof Ho as Ho'. unfold has_account in Ho'. destruct (own_of s a) as [[c kh]|] eqn:Eo; [|congruence].
  destruct (recommended_run s a c kh xs reply Hr Eo) as [Ha [r [H1 H2]]]. split; [exact Ha|]. exists r.
  destruct xs as [|x xs]; cbn [map overall] in H2.
  - subst r. unfold recommended. rewrite H1. destruct (text_eqb (cf_pref c) mutual); eexists; (split; [reflexivity|constructor]).
  - destruct H2 as [n [y [_ [_ [H2 _]]]]]. exists n. split; [exact H1|exact H2].
Qed.

Lemma advice_encrypt own v : advice own false v = L "encrypt" ->
  own = mutual /\ pv_keyhandle v <> [] /\ pv_direct v = true /\ pv_pref v = mutual /\
  pv_last_seen v = pv_ac_timestamp v.
Proof.
  unfold advice. destruct (text_eqb_spec (pv_keyhandle v) []) as [He|He]; [discriminate|].
  destruct (pv_direct v); cbn [negb]; [|discriminate]. destruct (days35 <? _); [discriminate|].
  destruct (text_eqb_spec own mutual) as [->|]; cbn [andb]; [|discriminate].
  destruct (text_eqb_spec (pv_pref v) mutual) as [->|]; cbn [andb]; [|discriminate].
  destruct (up_to_date v) eqn:Eu; [|discriminate]. unfold up_to_date in Eu. apply Z.eqb_eq in Eu. auto.
Qed.
Theorem c23 : forall s a xs c kh, reachable s -> own_of s a = Some (c, kh) -> xs <> [] ->
  recommended s a xs false (L "encrypt") ->
  cf_pref c = mutual /\
  forall x v, In x xs -> peer_of s a (norm x) = Some v ->
    pv_keyhandle v <> [] /\ pv_direct v = true /\ pv_pref v = mutual /\ pv_last_seen v = pv_ac_timestamp v.
Proof.
  intros s a xs c kh Hr Ho Hxs H.
  assert (Ha : has_account s a) by (unfold has_account; congruence).
  assert (Hall : forall x v, In x xs -> peer_of s a (norm x) = Some v -> advice (cf_pref c) false v = L "encrypt").
  { intros x v Hx Hv. pose proof (c20 s a c kh x v false Hr Ho Hv) as Hq.
    destruct (advice_rank (cf_pref c) false v) as [m Hm].
    assert (Hle : (3 <= m)%nat).
    { destruct (c21_min s a xs false Hr Ha Hxs) as [r [n [H3 [H4 [_ H5]]]]].
      unfold recommended in *. rewrite H in H3. injection H3 as <-. rewrite (rank_fun _ _ _ rk_encrypt H4). eapply H5; eauto. }
    inversion Hm; subst; try lia. reflexivity. }
  split.
  - destruct xs as [|x xs']; [congruence|]. destruct (own_peer_of s a c kh (norm x) Hr Ho) as [v Hv].
    apply (advice_encrypt (cf_pref c) v). apply (Hall x); [left; reflexivity|exact Hv].
  - intros x v Hx Hv. apply (advice_encrypt (cf_pref c) v). eapply Hall; eauto.
Qed.
End RecProofs.
