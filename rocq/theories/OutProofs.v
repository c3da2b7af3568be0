(** Outgoing mail: runs of process_outgoing and encrypt_mime taken apart. *)
From Verif Require Import Base PyStr Base64 Env Prog Chain Gpg Mime States Recommendation Account Cmdline Bot Fs Api Steps StepFacts Exec ApiScope Spec Obs PeerSpec PeerFacts RecSpec RecProofs HeaderSpec HeaderProofs OutSpec.

Section Out.
Context {E : Env}.

(** ** Headers *)
Lemma hget_hd m n : hget m n = hd_error (hget_all m n).
Proof.
  unfold hget, hget_all. induction (m_headers m) as [|[k v] h IH]; cbn; [reflexivity|].
  destruct (text_eqb (lower k) (lower n)); [reflexivity | exact IH].
Qed.
Lemma hin_all m n : hin m n = nonempty (hget_all m n).
Proof.
  unfold hin, hget_all. induction (m_headers m) as [|[k v] h IH]; cbn; [reflexivity|].
  destruct (text_eqb (lower k) (lower n)); [reflexivity | exact IH].
Qed.
Lemma has_header_all m n : has_header m n <-> hget_all m n <> [].
Proof.
  unfold has_header, hget_all. split.
  - intros [k [v [Hi Hl]]] Hn.
    assert (Hf : In (k, v) (filter (fun kv => text_eqb (lower (fst kv)) (lower n)) (m_headers m))).
    { apply filter_In. split; [exact Hi|]. cbn [fst]. rewrite Hl. apply text_eqb_refl. }
    apply (in_map snd) in Hf. rewrite Hn in Hf. exact Hf.
  - destruct (filter _ (m_headers m)) as [|[k v] l] eqn:Ef; [intros H; elim H; reflexivity|]. intros _.
    assert (Hf : In (k, v) (filter (fun kv => text_eqb (lower (fst kv)) (lower n)) (m_headers m))) by (rewrite Ef; left; reflexivity).
    apply filter_In in Hf as [H1 H2]. exists k, v. split; [exact H1|]. apply text_eqb_eq in H2. exact H2.
Qed.
Lemma filter_filter {A} (f g : A -> bool) l : filter f (filter g l) = filter (fun x => g x && f x) l.
Proof. induction l as [|x l IH]; cbn; [reflexivity|]. destruct (g x); cbn; [destruct (f x)|]; rewrite ?IH; reflexivity. Qed.
Lemma filter_ext_in' {A} (f g : A -> bool) l : (forall x, In x l -> f x = g x) -> filter f l = filter g l.
Proof. apply filter_ext_in. Qed.
Lemma hget_all_hdel m n n' : lower n <> lower n' -> hget_all (hdel m n') n = hget_all m n.
Proof.
  intros Hn. unfold hget_all, hdel. cbn [m_headers]. rewrite filter_filter. f_equal. apply filter_ext.
  intros [k v]. cbn [fst]. destruct (text_eqb_spec (lower k) (lower n')) as [->|]; cbn [negb andb]; [|reflexivity].
  symmetry. apply text_eqb_neq. congruence.
Qed.
Lemma hget_all_hdel_same m n : hget_all (hdel m n) n = [].
Proof.
  unfold hget_all, hdel. cbn [m_headers]. rewrite filter_filter.
  rewrite (filter_ext _ (fun _ => false)); [induction (m_headers m); auto|].
  intros [k v]. cbn [fst]. destruct (text_eqb _ _); reflexivity.
Qed.
Lemma hget_all_hadd m k v n : hget_all (hadd m k v) n = hget_all m n ++ (if text_eqb (lower k) (lower n) then [v] else []).
Proof.
  unfold hget_all, hadd. cbn [m_headers]. rewrite filter_app, map_app. f_equal. cbn [filter fst].
  destruct (text_eqb (lower k) (lower n)); reflexivity.
Qed.

Lemma named_content kv : is_content_header (fst kv) = named body_headers kv. Proof. reflexivity. Qed.
Lemma named_ignored kv : is_ignored_header (fst kv) = named mime_headers kv. Proof. reflexivity. Qed.

Lemma content_headers m : m_body (make_content_message_from_email m) = m_body m /\
  m_headers (make_content_message_from_email m) = inner_headers m.
Proof.
  unfold make_content_message_from_email.
  assert (H : forall keys m', m_body (fold_left (fun m' k => if is_content_header k then m' else hdel m' k) keys m') = m_body m' /\
    m_headers (fold_left (fun m' k => if is_content_header k then m' else hdel m' k) keys m') =
    filter (fun kv => negb (existsb (fun k => negb (is_content_header k) && text_eqb (lower (fst kv)) (lower k)) keys)) (m_headers m')).
  { induction keys as [|k keys IH]; intros m'; cbn [fold_left existsb].
    - split; [reflexivity|]. symmetry. induction (m_headers m') as [|x h IHh]; [reflexivity|]; cbn in *; congruence.
    - destruct (is_content_header k) eqn:Ek; cbn [negb andb orb]; [apply IH|].
      destruct (IH (hdel m' k)) as [H1 H2]. split; [rewrite H1; reflexivity|]. rewrite H2. unfold hdel. cbn [m_headers].
      rewrite filter_filter. apply filter_ext. intros [x v]. cbn [fst]. rewrite negb_orb. reflexivity. }
  destruct (H (map fst (m_headers m)) m) as [H1 H2]. split; [exact H1|]. rewrite H2. unfold inner_headers.
  apply filter_ext_in'. intros [k v] Hi. cbn [fst].
  destruct (named body_headers (k, v)) eqn:En.
  - apply negb_true_iff. apply not_true_iff_false. intros Hx. apply existsb_exists in Hx as [k' [_ Hk']].
    apply andb_prop in Hk' as [H3 H4]. apply text_eqb_eq in H4. unfold is_content_header in H3. rewrite <- H4 in H3.
    unfold named in En. cbn [fst] in En. unfold body_headers in En. rewrite En in H3. discriminate.
  - apply negb_false_iff. apply existsb_exists. exists k. split; [apply (in_map fst _ (k, v)), Hi|].
    unfold named in En. cbn [fst] in En. unfold is_content_header. unfold body_headers in En. rewrite En, text_eqb_refl. reflexivity.
Qed.

Lemma transfer_headers m n : m_body (transfer_non_content_headers m n) = m_body n /\
  m_headers (transfer_non_content_headers m n) = m_headers n ++ outer_headers m.
Proof.
  unfold transfer_non_content_headers, outer_headers. revert n.
  induction (m_headers m) as [|[k v] h IH]; intros n; cbn [fold_left filter].
  - rewrite app_nil_r. auto.
  - rewrite <- named_ignored. cbn [fst snd]. destruct (is_ignored_header k) eqn:Ei; cbn [negb]; [apply IH|].
    destruct (IH (hadd n k v)) as [H1 H2]. split; [rewrite H1; reflexivity|]. rewrite H2. unfold hadd. cbn [m_headers].
    rewrite <- app_assoc. reflexivity.
Qed.

(** ** Inversion of runs *)
Lemma arun_bind_ok {A B} (p : prog cop A) (f : A -> prog cop B) s s' r :
  arun (bind p f) s = (s', Ok r) -> exists s1 x, arun p s = (s1, Ok x) /\ arun (f x) s1 = (s', Ok r).
Proof.
  rewrite arun_bind. destruct (arun p s) as [s1 [x|e]] eqn:Ep; [|discriminate]. intros H. exists s1, x. auto.
Qed.
Lemma arun_ret_ok {A} (x : A) s s' r : arun (Ret x) s = (s', Ok r) -> s' = s /\ r = x.
Proof. unfold arun. cbn [run]. intros [= -> ->]. auto. Qed.
Lemma arun_lift_ok {A} (x : result A) s s' r : arun (lift x) s = (s', Ok r) -> s' = s /\ x = Ok r.
Proof. destruct x; unfold arun; cbn; [intros [= -> ->]; auto | discriminate]. Qed.
Lemma arun_read_ok n s s' r : arun (perform (CRead n)) s = (s', Ok r) -> s' = s /\ r = alog s n.
Proof. unfold arun. cbn. intros [= -> ->]. auto. Qed.
Lemma arun_assert_ok b s s' r : arun (assert_ b) s = (s', Ok r) -> s' = s /\ b = true.
Proof. destruct b; unfold arun; cbn; [intros [= -> _]; auto | discriminate]. Qed.
Lemma arun_raise_ok {A} e s s' (r : A) : arun (Raise e) s = (s', Ok r) -> False.
Proof. discriminate. Qed.
Lemma own_config_ok a s s' c : arun (own_config a) s = (s', Ok c) -> s' = s /\ config_of s a = Some c.
Proof. rewrite arun_own_config. destruct (config_of s a); [intros [= -> ->]; auto | discriminate]. Qed.
Lemma own_keyhandle_ok a s s' h : arun (own_keyhandle a) s = (s', Ok h) -> s' = s /\ exists k, keygen_of s a = Some k /\ h = kg_kh k.
Proof. rewrite arun_own_keyhandle. destruct (keygen_of s a); [intros [= -> <-]; eauto | discriminate]. Qed.

(** what only gpg has happened *)
Definition only_gpg (s s' : ast) : Prop := a_logs s' = a_logs s /\ exists l, a_trace s' = l ++ a_trace s.
Lemma only_gpg_refl s : only_gpg s s. Proof. split; [reflexivity|]. exists []; reflexivity. Qed.
Lemma only_gpg_trans s1 s2 s3 : only_gpg s1 s2 -> only_gpg s2 s3 -> only_gpg s1 s3.
Proof.
  intros [H1 [l1 H2]] [H3 [l2 H4]]. split; [congruence|]. exists (l2 ++ l1). rewrite H4, H2, app_assoc. reflexivity.
Qed.
Lemma only_gpg_log s s' n : only_gpg s s' -> alog s' n = alog s n.
Proof. intros [H _]. unfold alog. rewrite H. reflexivity. Qed.
Lemma ran_here s s1 s2 s' g : only_gpg s s1 -> ran s1 s2 g -> only_gpg s2 s' -> ran s s' g.
Proof.
  intros [_ [l1 H1]] [l2 [H2 Hi]] [_ [l3 H3]]. exists (l3 ++ l2 ++ l1). split.
  - rewrite H3, H2, H1, !app_assoc. reflexivity.
  - apply in_or_app. right. apply in_or_app. left. exact Hi.
Qed.

Lemma get_bingpg_ok a s s' g : arun (get_bingpg a) s = (s', Ok g) -> s' = s.
Proof.
  unfold get_bingpg. intros H. apply arun_bind_ok in H as [s1 [c [H1 H2]]].
  apply own_config_ok in H1 as [-> _]. destruct (negb _); [discriminate|].
  destruct (text_eqb _ _); [apply arun_lift_ok in H2; tauto|].
  destruct (text_eqb _ _); [apply arun_lift_ok in H2; tauto|discriminate].
Qed.

Lemma gpg_outerr_ok g argv inp tmp strict dec s s' out err :
  arun (gpg_outerr g argv inp tmp strict dec) s = (s', Ok (out, err)) ->
  let full := full_argv g argv in
  only_gpg s s' /\ a_trace s' = [GCall (argv_home full) full inp tmp] ++ a_trace s /\
  exists r, g_ret (snd (gpg r full inp tmp)) = 0%Z /\
    (if dec then utf8 (g_out (snd (gpg r full inp tmp))) else Some (g_out (snd (gpg r full inp tmp)))) = Some out.
Proof.
  intros H full. unfold gpg_outerr in H. apply arun_bind_ok in H as [s1 [r [H1 H2]]].
  unfold arun in H1. cbn [perform run astep] in H1. fold full in H1. unfold full_argv in full.
  change ([gp_path g; L "--batch"] ++ homedirflags g ++ argv) with full in H1.
  destruct (gpg (ring_at (a_rings s) (argv_home full)) full inp tmp) as [r' res] eqn:Eg.
  injection H1 as <- <-.
  destruct (Z.eqb (g_ret res) 130) eqn:E1; [discriminate|].
  destruct (utf8 (g_err res)) as [er|]; [|discriminate].
  destruct (if dec then utf8 (g_out res) else Some (g_out res)) as [o|] eqn:Eo; [|discriminate].
  destruct (negb (Z.eqb (g_ret res) 0) || (strict && nonempty er)) eqn:E2; [discriminate|].
  apply arun_ret_ok in H2 as [-> H2]. injection H2 as -> ->.
  apply orb_false_iff in E2 as [E2 _]. apply negb_false_iff, Z.eqb_eq in E2.
  split; [|split].
  - split; [reflexivity|]. eexists [_]. reflexivity.
  - reflexivity.
  - exists (ring_at (a_rings s) (argv_home full)). rewrite Eg. cbn [snd]. auto.
Qed.

Lemma get_public_keydata_ok g kh armor s s' kd : arun (get_public_keydata g kh armor) s = (s', Ok kd) ->
  only_gpg s s' /\ (exists g0, a_trace s' = [g0] ++ a_trace s /\ gc_in g0 = None) /\ (armor = false -> own_public_key s s' kh kd).
Proof.
  unfold get_public_keydata. intros H. apply arun_bind_ok in H as [s1 [[out err] [H1 H2]]].
  apply arun_ret_ok in H2 as [-> ->]. apply gpg_outerr_ok in H1 as [H1 [H3 [r [_ H4]]]]. injection H4 as H4.
  split; [exact H1|]. split; [eexists; split; [exact H3|reflexivity]|].
  intros ->. eexists _, _, r. split; [eexists; split; [exact H3|left; reflexivity]|]. split; [|exact H4].
  unfold full_argv. exists ([gp_path g; L "--batch"] ++ homedirflags g). rewrite <- !app_assoc. reflexivity.
Qed.

(** ** make_ac_header *)
Lemma make_ac_header_ok a x s s' v : arun (make_ac_header a x) s = (s', Ok v) ->
  only_gpg s s' /\ (exists g0, a_trace s' = [g0] ++ a_trace s /\ gc_in g0 = None) /\ exists c k key, config_of s a = Some c /\ keygen_of s a = Some k /\
    own_public_key s s' (kg_kh k) key /\ make_ac_header_value x key (cf_pref c) = Ok v.
Proof.
  unfold make_ac_header. intros H. apply arun_bind_ok in H as [s1 [g [H1 H]]]. apply get_bingpg_ok in H1 as ->.
  apply arun_bind_ok in H as [s1 [kh [H1 H]]]. apply own_keyhandle_ok in H1 as [-> [k [Hk ->]]].
  apply arun_bind_ok in H as [s1 [kd [H1 H]]]. apply get_public_keydata_ok in H1 as [O1 [O2 O3]].
  apply arun_bind_ok in H as [s2 [c [H1 H]]]. apply own_config_ok in H1 as [-> Hc].
  apply arun_lift_ok in H as [-> Hv].
  split; [exact O1|]. split; [exact O2|]. exists c, k, kd. unfold config_of in Hc. rewrite (only_gpg_log _ _ _ O1) in Hc. auto.
Qed.

(** ** encrypt_mime *)
Lemma peer_view_log s a y : WF s -> exists_acct s a -> peer_of s a y = Some (view_of (peerstate_chain a y) (alog s (peerstate_chain a y))).
Proof. intros Hw He. rewrite (peer_of_spec s a y Hw He). reflexivity. Qed.

Lemma encrypt_recipient_ok s a y st st' s' : WF s -> exists_acct s a ->
  arun (encrypt_recipient a st y) s = (s', Ok st') ->
  s' = s /\ exists kh g, key_in_use s a y kh /\ gossip_about s a y g /\
    fst st' = fst st ++ [kh] /\ m_body (snd st') = m_body (snd st) /\
    m_headers (snd st') = m_headers (snd st) ++ map (fun v => (L "Autocrypt-Gossip", v)) g.
Proof.
  intros Hw He H. destruct st as [khs clear]. unfold encrypt_recipient in H.
  apply arun_bind_ok in H as [s1 [l [H1 H]]]. apply arun_read_ok in H1 as [-> ->].
  pose proof (peer_view_log s a y Hw He) as Hv. cbv zeta in H.
  destruct (public_keyhandle (alog s (peerstate_chain a y))) as [|k0 kr] eqn:Ek; cbn [nonempty negb] in H.
  - apply arun_bind_ok in H as [s1 [c [H1 H]]]. apply own_config_ok in H1 as [-> Hc].
    apply arun_bind_ok in H as [s1 [b [H1 H]]]. apply arun_lift_ok in H1 as [-> Hb].
    destruct b; [|discriminate].
    apply arun_bind_ok in H as [s1 [own [H1 H]]]. apply own_keyhandle_ok in H1 as [-> [k [Hk ->]]].
    apply arun_ret_ok in H as [-> ->]. split; [reflexivity|]. exists (kg_kh k), [].
    split; [|split; [|split; [|split]]]; try reflexivity.
    + eexists. split; [exact Hv|]. right. split; [exact Ek|]. exists c. split; [|exact Hb].
      rewrite own_of_spec by exact Hw. rewrite Hc, Hk. reflexivity.
    + eexists. split; [exact Hv|]. left. auto.
    + cbn [snd map]. rewrite app_nil_r. reflexivity.
  - apply arun_bind_ok in H as [s1 [v [H1 H]]]. apply arun_lift_ok in H1 as [-> Hm].
    apply arun_ret_ok in H as [-> ->]. split; [reflexivity|]. exists (k0 :: kr), [v].
    split; [|split; [|split; [|split]]]; try reflexivity.
    + eexists. split; [exact Hv|]. left. cbn [view_of pv_keyhandle]. rewrite Ek. split; [discriminate | reflexivity].
    + eexists. split; [exact Hv|]. right. cbn [view_of pv_keyhandle pv_keydata]. rewrite Ek. split; [discriminate|]. eauto.
Qed.

Lemma encrypt_recipients_ok s a ys : WF s -> exists_acct s a -> forall st st' s',
  arun (foldM (encrypt_recipient a) ys st) s = (s', Ok st') ->
  s' = s /\ exists khs gs, Forall2 (key_in_use s a) ys khs /\ Forall2 (gossip_about s a) ys gs /\
    fst st' = fst st ++ khs /\ m_body (snd st') = m_body (snd st) /\
    m_headers (snd st') = m_headers (snd st) ++ map (fun v => (L "Autocrypt-Gossip", v)) (concat gs).
Proof.
  intros Hw He. induction ys as [|y ys IH]; intros st st' s' H; cbn [foldM] in H.
  - apply arun_ret_ok in H as [-> ->]. split; [reflexivity|]. exists [], []. cbn [map concat]. rewrite !app_nil_r. auto.
  - apply arun_bind_ok in H as [s1 [st1 [H1 H]]].
    apply encrypt_recipient_ok in H1 as [-> [kh [g [K1 [K2 [K3 [K4 K5]]]]]]]; auto.
    apply IH in H as [-> [khs [gs [I1 [I2 [I3 [I4 I5]]]]]]]. split; [reflexivity|].
    exists (kh :: khs), (g :: gs). split; [constructor; assumption|]. split; [constructor; assumption|].
    split; [rewrite I3, K3, <- app_assoc; reflexivity|]. split; [congruence|].
    rewrite I5, K5. cbn [concat]. rewrite map_app, <- app_assoc. reflexivity.
Qed.

Lemma encrypt_argv_command g khs own : encrypt_command (full_argv g (encrypt_argv g khs own)) khs own.
Proof.
  unfold full_argv, encrypt_argv, nopassphrase.
  exists (gp_path g), (homedirflags g), (if gpg21 (gp_path g) then [L "--pinentry-mode=loopback"] else []).
  split; [rewrite <- !app_assoc; destruct own; reflexivity|]. split.
  - unfold homedirflags. destruct (gp_home g) as [h|]; [destruct (nonempty h); eauto | auto].
  - destruct (gpg21 (gp_path g)); auto.
Qed.

Lemma encrypt_mime_ok s s' a m to em khs own c : WF s -> own_of s a = Some (c, own) ->
  arun (encrypt_mime a m to) s = (s', Ok (em, khs)) ->
  only_gpg s s' /\ Forall2 (fun x => key_in_use s a (norm x)) to khs /\
  exists gs clear data enc,
    Forall2 (fun x => gossip_about s a (norm x)) to gs /\
    m_body clear = m_body m /\
    m_headers clear = inner_headers m ++ map (fun v => (L "Autocrypt-Gossip", v)) (concat gs) /\
    flatten clear = Ok data /\ gpg_encrypted s s' khs own data enc /\
    m_body em = pgp_body enc /\ m_headers em = (L "Content-Type", encrypted_ctype) :: outer_headers m.
Proof.
  intros Hw Ho H.
  assert (He : exists_acct s a) by (apply has_account_exists; [exact Hw|]; unfold has_account; rewrite Ho; discriminate).
  unfold encrypt_mime in H. apply arun_bind_ok in H as [s1 [[] [H1 H]]]. apply arun_assert_ok in H1 as [-> _].
  apply arun_bind_ok in H as [s1 [[khs0 clear] [H1 H]]].
  apply encrypt_recipients_ok in H1 as [-> [khs1 [gs [K1 [K2 [K3 [K4 K5]]]]]]]; auto.
  cbn [fst snd app] in K3, K4, K5. subst khs1.
  apply arun_bind_ok in H as [s1 [own' [H1 H]]]. apply own_keyhandle_ok in H1 as [-> [k [Hk ->]]].
  apply arun_bind_ok in H as [s1 [data [H1 H]]]. apply arun_lift_ok in H1 as [-> Hd].
  apply arun_bind_ok in H as [s1 [g [H1 H]]]. apply get_bingpg_ok in H1 as ->.
  apply arun_bind_ok in H as [s1 [enc [H1 H]]].
  cbv zeta in H. apply arun_ret_ok in H as [-> H]. injection H as -> ->.
  unfold gpg_encrypt, version_known in H1. apply arun_bind_ok in H1 as [sv [v [Hv H1]]]. apply arun_lift_ok in Hv as [-> _].
  apply arun_bind_ok in H1 as [s2 [[out err] [H1 H]]].
  apply arun_ret_ok in H as [-> ->]. apply gpg_outerr_ok in H1 as [G1 [G2 [r [_ G4]]]]. injection G4 as G4.
  assert (Hown : kg_kh k = own).
  { rewrite own_of_spec in Ho by exact Hw. destruct (config_of s a); [|discriminate]. rewrite Hk in Ho. injection Ho as _ <-. reflexivity. }
  rewrite Hown in *.
  split; [exact G1|].
  assert (F1 : Forall2 (fun x => key_in_use s a (norm x)) to khs0).
  { clear - K1. revert khs0 K1. induction to as [|x to IH]; intros khs0 K1; inversion K1; subst; constructor; auto. }
  split; [exact F1|]. exists gs, clear, data, out.
  split. { clear - K2. revert gs K2. induction to as [|x to IH]; intros gs K2; inversion K2; subst; constructor; auto. }
  destruct (content_headers m) as [C1 C2].
  split; [rewrite K4; exact C1|]. split; [rewrite K5, C2; reflexivity|]. split; [exact Hd|]. split.
  - eexists _, _, r. split; [eexists; split; [exact G2|left; reflexivity]|]. split; [apply encrypt_argv_command | exact G4].
  - destruct (transfer_headers m (make_message encrypted_ctype
      (PParts [make_message (L "application/pgp-encrypted") (PStr (L "version: 1")); make_message (L "application/octet-stream") (PBytes out)]))) as [T1 T2].
    split; [rewrite T1; reflexivity | rewrite T2; reflexivity].
Qed.

(** ** process_outgoing *)
Definition everyone (m : msg) : list text :=
  if mem_text (from_addr m) (targets m) then targets m else targets m ++ [from_addr m].
Lemma In_everyone m x : In x (everyone m) <-> In x (targets m) \/ x = from_addr m.
Proof.
  unfold everyone. destruct (mem_text (from_addr m) (targets m)) eqn:Em.
  - apply mem_text_In in Em. split; [auto|]. intros [H| ->]; auto.
  - rewrite in_app_iff. simpl. intuition.
Qed.

Lemma overall_fun s a p reply xs r q : overall s a p reply xs r -> overall s a p reply xs q -> r = q.
Proof.
  destruct xs as [|x0 xs]; cbn [overall]; [congruence|].
  intros [n [x [Hx [Hr [Hn Ha]]]]] [m [y [Hy [Hq [Hm Hb]]]]].
  assert (n <= m)%nat by (apply (Ha y); [exact Hy|rewrite <- Hq; exact Hm]).
  assert (m <= n)%nat by (apply (Hb x); [exact Hx|rewrite <- Hr; exact Hn]).
  assert (n = m) by lia. subst m. eapply rank_inj; eauto.
Qed.
Lemma overall_logs s s1 a p reply xs r : a_logs s1 = a_logs s -> overall s1 a p reply xs r -> overall s a p reply xs r.
Proof.
  intros Hl. assert (Ha : forall n, advice_for s1 p reply n = advice_for s p reply n).
  { intros n. unfold advice_for, alog. rewrite Hl. reflexivity. }
  destruct xs as [|x0 xs]; cbn [overall]; [auto|].
  intros [n [x [Hx [Hr [Hn Hb]]]]]. exists n, x. rewrite Ha in Hr. do 3 (split; [assumption|]).
  intros y m Hy Hm. apply (Hb y m Hy). rewrite Ha. exact Hm.
Qed.

Lemma asked_others m f : hget_all m (L "From") = [f] ->
  asked (map Some (targets m)) (Some (from_addr m)) = map norm (others m).
Proof.
  intros _. unfold asked, others. rewrite map_map. induction (targets m) as [|x l IH]; [reflexivity|].
  cbn [map filter]. change (parse_email_addr (Some x)) with (norm x). cbn [otext_eqb].
  destruct (text_eqb (norm x) (from_addr m)); cbn [negb map]; [exact IH|]. f_equal. exact IH.
Qed.

Lemma wf_config s a c own : WF s -> own_of s a = Some (c, own) -> config_of s a = Some c /\ exists k, keygen_of s a = Some k /\ kg_kh k = own.
Proof.
  intros Hw Ho. rewrite own_of_spec in Ho by exact Hw. destruct (config_of s a), (keygen_of s a); try discriminate.
  injection Ho as -> <-. eauto.
Qed.
Lemma own_exists s a c own : WF s -> own_of s a = Some (c, own) -> exists_acct s a.
Proof. intros Hw Ho. apply has_account_exists; [exact Hw|]. unfold has_account. congruence. Qed.
Lemma exists_own s a : WF s -> exists_acct s a -> exists c own, own_of s a = Some (c, own).
Proof. intros Hw [c [k [Hc Hk]]]. rewrite own_of_spec by exact Hw. rewrite Hc, Hk. eauto. Qed.

Lemma get_account_ok s a s' b : WF s -> arun (get_account a true) s = (s', Ok b) -> s' = s /\ b = a /\ exists_acct s a.
Proof.
  intros Hw H. destruct (exists_acct_dec s a) as [He|He].
  - rewrite arun_get_account in H by auto. injection H as <- <-. auto.
  - rewrite arun_get_account_none in H by auto. discriminate.
Qed.

Lemma same_peer s s1 a y : WF s -> WF s1 -> a_logs s1 = a_logs s -> exists_acct s a -> exists_acct s1 a /\ peer_of s1 a y = peer_of s a y /\ own_of s1 a = own_of s a.
Proof.
  intros Hw Hw1 Hl He. assert (He1 : exists_acct s1 a).
  { destruct He as [c [k [Hc Hk]]]. exists c, k. unfold config_of, keygen_of, alog in *. rewrite Hl. auto. }
  split; [exact He1|]. rewrite !peer_of_spec, !own_of_spec by auto.
  unfold peer_log, config_of, keygen_of, alog. rewrite Hl. auto.
Qed.

Lemma prepared_hget_all m added m2 n : prepared m added m2 -> lower n <> lower (L "ENCRYPT") -> lower n <> lower (L "Autocrypt") ->
  hget_all m2 n = hget_all m n.
Proof.
  intros [_ Hh] H1 H2. unfold hget_all. rewrite Hh. rewrite filter_app, map_app.
  change (without (L "ENCRYPT") (m_headers m)) with (m_headers (hdel m (L "ENCRYPT"))).
  fold (hget_all (hdel m (L "ENCRYPT")) n). rewrite (hget_all_hdel m n _ H1).
  destruct added as [v|]; cbn [filter fst map]; [|rewrite app_nil_r; reflexivity].
  destruct (text_eqb_spec (lower (L "Autocrypt")) (lower n)) as [He|_]; [congruence|]. cbn [map]. rewrite app_nil_r. reflexivity.
Qed.
Lemma prepared_encrypted m added m2 : prepared m added m2 -> is_encrypted m2 = is_encrypted m.
Proof.
  intros Hp. pose proof (prepared_hget_all m added m2 (L "content-type") Hp) as Hc. destruct Hp as [Hb _].
  unfold is_encrypted, get_content_type. rewrite !hget_hd, Hc by discriminate. rewrite Hb. reflexivity.
Qed.

Definition way (s s' : ast) (a : text) (m : msg) (o : outgoing) (s1 : ast) (m2 : msg) : Prop :=
  (is_encrypted m = Ok true /\ out_msg o = m2 /\ s' = s1) \/
  (is_encrypted m = Ok false /\ exists f r, hget_all m (L "From") = [f] /\ recommended s a (others m) false r /\
    ((out_msg o = m2 /\ s' = s1 /\ (control m = Some (L "no") \/ (r <> L "encrypt" /\ control m <> Some (L "yes")))) \/
     (control m <> Some (L "no") /\ (r = L "encrypt" \/ (r <> L "disable" /\ control m = Some (L "yes"))) /\
      exists khs, arun (encrypt_mime a m2 (everyone m)) s1 = (s', Ok (out_msg o, khs))))).

Lemma otext_eqb_spec x y : otext_eqb x y = true <-> x = y.
Proof.
  destruct x as [x|], y as [y|]; cbn [otext_eqb]; try (split; congruence).
  rewrite text_eqb_eq. split; congruence.
Qed.
Lemma otext_eqb_false x y : otext_eqb x y = false <-> x <> y.
Proof. rewrite <- otext_eqb_spec. destruct (otext_eqb x y); split; congruence. Qed.

Lemma outgoing_ok s s' a m o : reachable s -> exists_acct s a -> arun (process_outgoing a m) s = (s', Ok o) ->
  (control m = None \/ exists w, control m = Some w /\ In w [L "opportunistic"; L "yes"; L "no"]) /\
  out_acct o = a /\ out_addr o = from_addr m /\
  exists s1 m2, reachable s1 /\ only_gpg s s1 /\ prepared m (out_added o) m2 /\
    ((hget_all m (L "Autocrypt") <> [] /\ out_added o = None /\ s1 = s) \/
     (hget_all m (L "Autocrypt") = [] /\ exists v, out_added o = Some v /\ arun (make_ac_header a (from_addr m)) s = (s1, Ok v))) /\
    way s s' a m o s1 m2.
Proof.
  intros Hr He H. pose proof (reachable_WF s Hr) as Hw.
  destruct (exists_own s a Hw He) as [c [own Ho]].
  destruct (wf_config s a c own Hw Ho) as [Hc [k [Hk Hkh]]].
  unfold process_outgoing in H. apply arun_bind_ok in H as [s0 [[enc m1] [H1 H]]].
  assert (Hctl : s0 = s /\ enc = control m /\ m1 = hdel m (L "ENCRYPT") /\
    (control m = None \/ exists w, control m = Some w /\ In w [L "opportunistic"; L "yes"; L "no"])).
  { unfold control. destruct (hget m (L "ENCRYPT")) as [h|] eqn:Eh.
    - apply arun_bind_ok in H1 as [s1 [[] [H1 H2]]]. apply arun_assert_ok in H1 as [-> Hin].
      apply arun_ret_ok in H2 as [-> H2]. injection H2 as -> ->. cbn [option_map].
      split; [reflexivity|]. split; [reflexivity|]. split; [reflexivity|]. right. exists (strip h). split; [reflexivity|]. apply mem_text_In. exact Hin.
    - apply arun_ret_ok in H1 as [-> H2]. injection H2 as -> ->.
      split; [reflexivity|]. split; [reflexivity|]. split; [|left; reflexivity].
      unfold hdel. rewrite hget_hd in Eh. destruct m as [hs b]. cbn [m_headers m_body]. f_equal. symmetry.
      unfold hget_all in Eh. cbn [m_headers] in Eh. clear - Eh.
      induction hs as [|[k v] hs IH]; [reflexivity|]. cbn [filter fst] in *. destruct (text_eqb (lower k) (lower (L "ENCRYPT"))); [discriminate|].
      cbn [negb]. f_equal. apply IH. exact Eh. }
  destruct Hctl as [-> [-> [-> Hctl]]]. split; [exact Hctl|]. cbv zeta in H.
  assert (Hfrom : hget_all (hdel m (L "ENCRYPT")) (L "From") = hget_all m (L "From")) by (apply hget_all_hdel; discriminate).
  assert (Hfa : parse_email_addr (hget (hdel m (L "ENCRYPT")) (L "From")) = from_addr m).
  { unfold from_addr. rewrite !hget_hd, Hfrom. reflexivity. }
  clear H1. rewrite Hfa in H. apply arun_bind_ok in H as [s1 [[added m2] [H1 H]]].
  assert (Hadd : reachable s1 /\ only_gpg s s1 /\ prepared m added m2 /\
    ((hget_all m (L "Autocrypt") <> [] /\ added = None /\ s1 = s) \/
     (hget_all m (L "Autocrypt") = [] /\ exists v, added = Some v /\ arun (make_ac_header a (from_addr m)) s = (s1, Ok v)))).
  { rewrite hin_all, (hget_all_hdel m (L "Autocrypt")) in H1 by discriminate.
    destruct (hget_all m (L "Autocrypt")) as [|v0 vs] eqn:Ea; cbn [nonempty] in H1.
    - apply arun_bind_ok in H1 as [s2 [v [H1 H2]]]. apply arun_ret_ok in H2 as [-> H2]. injection H2 as -> ->.
      pose proof H1 as H1'. apply make_ac_header_ok in H1' as [G1 _].
      split; [|split; [exact G1|split; [split; reflexivity|right; split; [reflexivity|eauto]]]].
      pose proof (reachable_step s (AHeader a (from_addr m)) Hr) as Hr1. cbn [exec] in Hr1.
      rewrite arun_with_account in Hr1 by auto. rewrite arun_bind, H1 in Hr1. exact Hr1.
    - apply arun_ret_ok in H1 as [-> H1]. injection H1 as -> ->.
      split; [exact Hr|]. split; [apply only_gpg_refl|]. split; [split; [reflexivity|]; symmetry; apply app_nil_r|].
      left. split; [discriminate|auto]. }
  destruct Hadd as [Hr1 [Hg1 [Hp Hadd]]].
  clear H1. apply arun_bind_ok in H as [s2 [b [H1 H]]]. apply arun_lift_ok in H1 as [-> Hb].
  rewrite (prepared_encrypted m added m2 Hp) in Hb.
  apply arun_bind_ok in H as [s2 [m3 [H1 H]]]. apply arun_ret_ok in H as [-> ->]. cbn [out_acct out_addr out_added out_msg].
  split; [reflexivity|]. split; [reflexivity|]. exists s1, m2. do 4 (split; [assumption|]).
  unfold way. cbn [out_msg]. destruct b.
  - left. apply arun_ret_ok in H1 as [-> ->]. auto.
  - right. split; [exact Hb|]. rewrite (prepared_hget_all m added m2 (L "From") Hp) in H1 by discriminate.
    destruct (hget_all m (L "From")) as [|f [|? ?]] eqn:Ef; try (exfalso; exact (arun_raise_ok _ _ _ _ H1)).
    assert (Hff : parse_email_addr (Some f) = from_addr m) by (unfold from_addr; rewrite hget_hd, Ef; reflexivity).
    assert (Ht : get_target_emailadr m2 = targets m).
    { unfold get_target_emailadr, get_target_fulladr, targets. rewrite !(prepared_hget_all m added m2 _ Hp) by discriminate. reflexivity. }
    rewrite Hff, Ht in H1. fold (everyone m) in H1.
    pose proof (reachable_WF s1 Hr1) as Hw1.
    assert (Hc1 : config_of s1 a = Some c) by (unfold config_of; rewrite (only_gpg_log s s1 _ Hg1); exact Hc).
    destruct (recommend_run s1 a c (map Some (targets m)) false (Some (from_addr m)) Hw1 Hc1) as [r [R1 R2]].
    rewrite (asked_others m f Ef) in R2. apply (overall_logs s s1) in R2; [|apply Hg1].
    destruct (recommended_run s a c own (others m) false Hr Ho) as [_ [r' [Q1 Q2]]].
    pose proof (overall_fun _ _ _ _ _ _ _ R2 Q2) as <-.
    apply arun_bind_ok in H1 as [s3 [r' [H1 H2]]]. rewrite R1 in H1. injection H1 as <- <-.
    exists f, r. split; [reflexivity|]. split; [exact Q1|].
    destruct (otext_eqb (control m) (Some (L "no"))) eqn:Eno.
    + apply otext_eqb_spec in Eno. apply arun_ret_ok in H2 as [-> ->]. auto.
    + apply otext_eqb_false in Eno.
      destruct (otext_eqb (Some r) (Some (L "encrypt"))
        || (negb (otext_eqb (Some r) (Some (L "disable"))) && otext_eqb (control m) (Some (L "yes")))) eqn:Ed.
      * right. split; [exact Eno|]. split.
        { apply orb_prop in Ed as [Ed|Ed]; [left; apply otext_eqb_spec in Ed; congruence|].
          apply andb_prop in Ed as [E1 E2]. apply negb_true_iff, otext_eqb_false in E1. apply otext_eqb_spec in E2. right. split; congruence. }
        apply arun_bind_ok in H2 as [s4 [[em khs] [H2 H3]]]. apply arun_ret_ok in H3 as [-> ->]. exists khs. exact H2.
      * apply orb_false_iff in Ed as [E1 E2]. apply otext_eqb_false in E1.
        destruct (otext_eqb (control m) (Some (L "yes"))) eqn:Ey; [discriminate|].
        apply otext_eqb_false in Ey. apply arun_ret_ok in H2 as [-> ->]. left. split; [reflexivity|]. split; [reflexivity|]. right. split; congruence.
Qed.

End Out.
