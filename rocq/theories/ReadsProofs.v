(** Proofs for C87. *)
From Verif Require Import Base PyStr Env Prog Chain Gpg Mime States Recommendation Account Fs Api Steps Refine Spec Exec StoreFacts Crash Conc StoreProofs WatchSpec WatchProofs Reads ReadsSpec.

Section ReadsProofs.
Context {E : Env}.

Lemma same_refl A (p : prog cop A) : same p p. Proof. intros s. reflexivity. Qed.
Lemma same_bind A B (p q : prog cop A) (f g : A -> prog cop B) : same p q -> (forall x, same (f x) (g x)) -> same (bind p f) (bind q g).
Proof. intros H1 H2 s. rewrite !arun_bind, H1. destruct (arun q s) as [s1 [x|e]]; [apply H2|reflexivity]. Qed.
Lemma same_foldM A B (f g : B -> A -> prog cop B) l : (forall b x, same (f b x) (g b x)) -> forall b, same (foldM f l b) (foldM g l b).
Proof. intros H. induction l as [|x l IH]; intros b; cbn [foldM]; [apply same_refl|]. apply same_bind; auto. Qed.
Lemma same_mapM A B (f g : A -> prog cop B) l : (forall x, same (f x) (g x)) -> same (mapM f l) (mapM g l).
Proof.
  intros H. induction l as [|x l IH]; cbn [mapM]; [apply same_refl|]. apply same_bind; [apply H|]. intros y.
  apply same_bind; [exact IH|]. intros ys. apply same_refl.
Qed.
Lemma arun_read B n (f : list block -> prog cop B) s : arun (l <- perform (CRead n) ;; f l) s = arun (f (alog s n)) s.
Proof. reflexivity. Qed.
Lemma arun_ok A B (p : prog cop A) (f : A -> prog cop B) s x : arun p s = (s, Ok x) -> arun (bind p f) s = arun (f x) s.
Proof. intros H. rewrite arun_bind, H. reflexivity. Qed.

Lemma r_ac_run n s : arun (r_ac_entry n) s = (s, Ok (latest_ac_entry (alog s n))). Proof. reflexivity. Qed.
Lemma r_msg_run n s : arun (r_msg_entry n) s = (s, Ok (latest_msg_entry (alog s n))). Proof. reflexivity. Qed.
Lemma r_seen_run n s : arun (r_last_seen n) s = (s, Ok (last_seen (alog s n))). Proof. reflexivity. Qed.
Lemma r_ts_run n s : arun (r_timestamp n) s = (s, Ok (autocrypt_timestamp (alog s n))). Proof. reflexivity. Qed.
Lemma r_direct_run n s : arun (r_has_direct_key n) s = (s, Ok (has_direct_key (alog s n))). Proof. reflexivity. Qed.
Lemma r_entry_run n s : arun (r_entry_for_encryption n) s = (s, Ok (entry_for_encryption (alog s n))).
Proof.
  unfold r_entry_for_encryption, entry_for_encryption, has_direct_key. rewrite (arun_ok _ _ _ _ _ _ (r_ac_run n s)).
  destruct (match latest_ac_entry (alog s n) with Some e => nonempty (me_kh e) | None => false end); reflexivity.
Qed.
Lemma r_keyhandle_run n s : arun (r_keyhandle n) s = (s, Ok (public_keyhandle (alog s n))).
Proof. unfold r_keyhandle. rewrite (arun_ok _ _ _ _ _ _ (r_entry_run n s)). reflexivity. Qed.
Lemma r_keydata_run n s : arun (r_keydata n) s = (s, Ok (public_keydata (alog s n))).
Proof. unfold r_keydata. rewrite (arun_ok _ _ _ _ _ _ (r_entry_run n s)). reflexivity. Qed.
Lemma r_pref_run n s : arun (r_pref n) s = (s, Ok (peer_prefer_encrypt (alog s n))).
Proof. unfold r_pref. rewrite (arun_ok _ _ _ _ _ _ (r_entry_run n s)). reflexivity. Qed.
Lemma r_preliminary_run n s : arun (r_preliminary n) s = (s, Ok (preliminary (alog s n))).
Proof.
  unfold r_preliminary, preliminary. rewrite (arun_ok _ _ _ _ _ _ (r_keyhandle_run n s)), (arun_ok _ _ _ _ _ _ (r_keyhandle_run n s)).
  destruct (negb (nonempty (public_keyhandle (alog s n)))); [reflexivity|].
  rewrite (arun_ok _ _ _ _ _ _ (r_direct_run n s)). destruct (negb (has_direct_key (alog s n))); [reflexivity|].
  rewrite (arun_ok _ _ _ _ _ _ (r_seen_run n s)), (arun_ok _ _ _ _ _ _ (r_ts_run n s)).
  destruct (Z.ltb _ _); reflexivity.
Qed.
Lemma lift_run A (r : result A) s : arun (lift r) s = (s, r).
Proof. destruct r; reflexivity. Qed.
Lemma r_peer_run own reply n s : arun (r_peer_recommendation own reply n) s = (s, peer_recommendation own reply (alog s n)).
Proof.
  unfold r_peer_recommendation, peer_recommendation. cbv zeta. rewrite (arun_ok _ _ _ _ _ _ (r_preliminary_run n s)).
  destruct ((text_eqb (preliminary (alog s n)) (L "available") || text_eqb (preliminary (alog s n)) (L "discourage")) && reply); [reflexivity|].
  destruct (text_eqb (preliminary (alog s n)) (L "available") && text_eqb own (L "mutual")); [|reflexivity]. cbn [andb].
  rewrite (arun_ok _ _ _ _ _ _ (r_pref_run n s)). destruct (text_eqb (peer_prefer_encrypt (alog s n)) (L "mutual")); [|reflexivity].
  rewrite (arun_ok _ _ _ _ _ _ (r_msg_run n s)). destruct (latest_msg_entry (alog s n)) as [e|]; [|reflexivity].
  destruct (nonempty (me_keydata e)); reflexivity.
Qed.
Lemma same_recommend acct addrs reply from : same (r_recommend acct addrs reply from) (recommend acct addrs reply from).
Proof.
  unfold r_recommend, recommend. apply same_bind; [apply same_refl|]. intros c. unfold ui_recommendation.
  apply same_bind; [|intros; apply same_refl]. apply same_mapM. intros n s. rewrite r_peer_run, arun_read, lift_run. reflexivity.
Qed.
Lemma same_targets d : same (r_target_keyhandles d) (target_keyhandles d).
Proof.
  unfold r_target_keyhandles, target_keyhandles. apply same_mapM. intros [y n] s. rewrite (arun_ok _ _ _ _ _ _ (r_keyhandle_run n s)). reflexivity.
Qed.
Lemma same_update n id date pref kd kh : same (r_update_from_msg n id date pref kd kh) (update_from_msg n id date pref kd kh).
Proof.
  intros s. unfold r_update_from_msg, update_from_msg. rewrite (arun_ok _ _ _ _ _ _ (r_ts_run n s)), arun_read.
  destruct (Z.ltb date (autocrypt_timestamp (alog s n))); [reflexivity|]. cbv zeta.
  rewrite (arun_ok _ _ (r_message_entry n id) _ s (get_message_entry (alog s n) id) eq_refl).
  destruct (match get_message_entry (alog s n) id with Some e => _ | None => false end); [reflexivity|].
  destruct kd as [[|c k]|]; cbn [nonempty negb]; rewrite ?(arun_ok _ _ _ _ _ _ (r_seen_run n s)); reflexivity.
Qed.
Lemma same_update_gossip n id date kd kh : same (r_update_from_msg_gossip n id date kd kh) (update_from_msg_gossip n id date kd kh).
Proof.
  intros s. unfold r_update_from_msg_gossip, update_from_msg_gossip. rewrite (arun_ok _ _ _ _ _ _ (r_ts_run n s)), arun_read.
  destruct (Z.ltb date (autocrypt_timestamp (alog s n))); [reflexivity|]. cbv zeta.
  destruct kd as [[|c k]|]; cbn [nonempty negb]; [reflexivity| |reflexivity].
  rewrite (arun_ok _ _ (r_gossip_message_entry n id) _ s (get_gossip_message_entry (alog s n) id) eq_refl).
  destruct (match get_gossip_message_entry (alog s n) id with Some e => _ | None => false end); reflexivity.
Qed.
Lemma same_bingpg a : same (r_get_bingpg a) (get_bingpg a).
Proof.
  intros s. unfold r_get_bingpg, get_bingpg.
  assert (H : arun (own_config a) s = (s, match latest_config (alog s (own_chain a)) with Some c => Ok c | None => Err AttributeError end)).
  { unfold own_config. rewrite arun_read. destruct (latest_config _); reflexivity. }
  destruct (latest_config (alog s (own_chain a))) as [c|]; [|rewrite !arun_bind, H; reflexivity].
  rewrite !(arun_ok _ _ _ _ _ _ H).
  destruct (text_eqb (cf_mode c) (L "own")); [|destruct (text_eqb (cf_mode c) (L "system"))]; cbn [bind]; rewrite ?(arun_ok _ _ _ _ _ _ H);
    destruct (negb (nonempty (cf_bin c))); rewrite ?(arun_ok _ _ _ _ _ _ H); reflexivity.
Qed.
Lemma same_header a x : same (r_make_ac_header a x) (make_ac_header a x).
Proof. apply same_bind; [apply same_bingpg|]. intros g. apply same_refl. Qed.
Lemma same_export_public a kh : same (r_export_public_key a kh) (export_public_key a kh).
Proof. apply same_bind; [apply same_refl|]. intros h. apply same_bind; [apply same_bingpg|]. intros g. apply same_refl. Qed.
Lemma same_export_secret a : same (r_export_secret_key a) (export_secret_key a).
Proof. apply same_bind; [apply same_bingpg|]. intros g. apply same_refl. Qed.
Lemma same_import_key a p : same (r_import_key a p) (import_key a p).
Proof. apply same_bind; [apply same_bingpg|]. intros g. apply same_refl. Qed.
Lemma same_autocrypt a m from n date id : same (r_process_autocrypt_header a m from n date id) (process_autocrypt_header a m from n date id).
Proof.
  apply same_bind; [apply same_refl|]. intros p. apply same_bind.
  - destruct (has_error p); [apply same_refl|apply same_import_key].
  - intros [kh p']. apply same_bind; [apply same_update|]. intros _. apply same_refl.
Qed.
Lemma same_decrypt a m : same (r_decrypt_mime a m) (decrypt_mime a m).
Proof.
  apply same_bind; [apply same_refl|]. intros b. apply same_bind; [apply same_refl|]. intros _.
  destruct (m_body m) as [| | |[|p0 [|p1 [|p2 l]]]]; try apply same_refl.
  apply same_bind; [apply same_refl|]. intros d. apply same_bind; [apply same_bingpg|]. intros g. apply same_refl.
Qed.
Lemma same_gossip a m date id : same (r_process_gossip_headers a m date id) (process_gossip_headers a m date id).
Proof.
  apply same_bind; [apply same_refl|]. intros d. apply same_bind; [|intros; apply same_refl].
  apply same_foldM. intros [d1 d2] y. unfold r_gossip_recipient, gossip_recipient. destruct (dget d1 y) as [p|]; [|apply same_refl].
  apply same_bind; [apply same_import_key|]. intros [kh p']. apply same_bind; [apply same_update_gossip|]. intros _. apply same_refl.
Qed.
Lemma same_incoming a m ign nodec : same (r_process_incoming a m ign nodec) (process_incoming a m ign nodec).
Proof.
  unfold r_process_incoming, process_incoming. cbv zeta.
  apply same_bind; [apply same_refl|]. intros d. apply same_bind; [apply same_refl|]. intros date.
  intros s. rewrite arun_read. set (n := peerstate_chain a _).
  assert (H : arun (if ign then l <- perform (CRead n) ;; Ret (has_message l (msg_id_text m)) else Ret false) s = (s, Ok (ign && has_message (alog s n) (msg_id_text m)))).
  { destruct ign; reflexivity. }
  rewrite (arun_ok _ _ _ _ _ _ H). destruct (ign && has_message (alog s n) (msg_id_text m)); [reflexivity|]. revert s H. intros s _. revert s.
  match goal with |- forall s, arun ?p s = arun ?q s => change (same p q) end. apply same_bind; [apply same_autocrypt|]. intros p. apply same_bind; [apply same_refl|]. intros enc.
  apply same_bind; [|intros; apply same_refl]. destruct enc; [|apply same_refl].
  apply same_bind; [apply same_decrypt|]. intros [dec infos]. apply same_bind; [apply same_gossip|]. intros gp. apply same_refl.
Qed.
Lemma same_import a addr kd pref : same (r_import_keydata_as_autocrypt a addr kd pref) (import_keydata_as_autocrypt a addr kd pref).
Proof.
  apply same_bind; [apply same_bingpg|]. intros g. do 3 (apply same_bind; [apply same_refl|]; intros ?).
  apply same_bind; [|intros; apply same_refl]. apply same_mapM. intros y. do 2 (apply same_bind; [apply same_refl|]; intros ?). apply same_update.
Qed.
Lemma same_recipient a st y : same (r_encrypt_recipient a st y) (encrypt_recipient a st y).
Proof.
  destruct st as [khs clear]. intros s. unfold r_encrypt_recipient, encrypt_recipient. set (n := peerstate_chain a y).
  rewrite (arun_ok _ _ _ _ _ _ (r_keyhandle_run n s)), arun_read. cbv zeta. destruct (negb (nonempty (public_keyhandle (alog s n)))); [reflexivity|].
  rewrite !(arun_ok _ _ _ _ _ _ (r_keydata_run n s)). reflexivity.
Qed.
Lemma bingpg_state a s : fst (arun (get_bingpg a) s) = s.
Proof.
  unfold get_bingpg, own_config. rewrite arun_bind, arun_read. destruct (latest_config _) as [c|]; [|reflexivity].
  change (arun (Ret c) s) with (s, Ok c). cbv beta iota. destruct (negb (nonempty (cf_bin c))); [reflexivity|].
  destruct (text_eqb (cf_mode c) (L "own")); [rewrite lift_run; reflexivity|]. destruct (text_eqb (cf_mode c) (L "system")); [rewrite lift_run|]; reflexivity.
Qed.
Lemma keyhandle_state a s : fst (arun (own_keyhandle a) s) = s.
Proof. unfold own_keyhandle. rewrite arun_read. destruct (latest_keygen _); reflexivity. Qed.
Lemma same_encrypt a m to : same (r_encrypt_mime a m to) (encrypt_mime a m to).
Proof.
  unfold r_encrypt_mime, encrypt_mime. apply same_bind; [apply same_refl|]. intros _.
  apply same_bind; [apply same_foldM; intros; apply same_recipient|]. intros [khs clear] s. cbv zeta.
  rewrite !arun_bind. pose proof (keyhandle_state a s) as Hk. destruct (arun (own_keyhandle a) s) as [s1 [own|e]] eqn:Eo; cbn [fst] in Hk; subst s1; [|reflexivity].
  rewrite !arun_bind, lift_run. destruct (flatten clear) as [cd|e]; [|reflexivity].
  rewrite !arun_bind, same_bingpg. pose proof (bingpg_state a s) as Hg. destruct (arun (get_bingpg a) s) as [s1 [g|e]]; cbn [fst] in Hg; subst s1; [|reflexivity].
  rewrite !arun_bind, Eo. rewrite !arun_bind. reflexivity.
Qed.
Lemma same_outgoing a m : same (r_process_outgoing a m) (process_outgoing a m).
Proof.
  unfold r_process_outgoing, process_outgoing. apply same_bind; [apply same_refl|]. intros [h m1]. cbv zeta. apply same_bind.
  { destruct (hin m1 (L "Autocrypt")); [apply same_refl|]. apply same_bind; [apply same_header|]. intros v. apply same_refl. }
  intros [added m2]. apply same_bind; [apply same_refl|]. intros b. apply same_bind; [|intros; apply same_refl]. destruct b; [apply same_refl|].
  destruct (hget_all m2 (L "From")) as [|f [|f2 fs]]; try apply same_refl. apply same_bind; [apply same_recommend|]. intros rec.
  destruct (otext_eqb h (Some (L "no"))); [apply same_refl|].
  destruct (otext_eqb rec (Some (L "encrypt")) || (negb (otext_eqb rec (Some (L "disable"))) && otext_eqb h (Some (L "yes")))); [|apply same_refl].
  apply same_bind; [apply same_encrypt|]. intros [em khs]. apply same_refl.
Qed.

Lemma c87_alone a :
  (forall m ign nodec, same (r_process_incoming a m ign nodec) (process_incoming a m ign nodec)) /\
  (forall m, same (r_process_outgoing a m) (process_outgoing a m)) /\
  (forall m to, same (r_encrypt_mime a m to) (encrypt_mime a m to)) /\
  (forall m, same (r_decrypt_mime a m) (decrypt_mime a m)) /\
  (forall x, same (r_make_ac_header a x) (make_ac_header a x)) /\
  (forall kh, same (r_export_public_key a kh) (export_public_key a kh)) /\
  same (r_export_secret_key a) (export_secret_key a) /\
  (forall addr kd pref, same (r_import_keydata_as_autocrypt a addr kd pref) (import_keydata_as_autocrypt a addr kd pref)) /\
  (forall addrs reply from, same (r_recommend a addrs reply from) (recommend a addrs reply from)) /\
  (forall peers, same (r_target_keyhandles peers) (target_keyhandles peers)).
Proof.
  split; [intros; apply same_incoming|]. split; [intros; apply same_outgoing|]. split; [intros; apply same_encrypt|].
  split; [intros; apply same_decrypt|]. split; [intros; apply same_header|]. split; [intros; apply same_export_public|].
  split; [apply same_export_secret|]. split; [intros; apply same_import|]. split; [intros; apply same_recommend|]. intros; apply same_targets.
Qed.

(** ** While others write *)
Definition reads_in (N : text -> Prop) (X : Type) (o : cop X) : Prop := match o with CRead n => N n | _ => False end.
Lemma reads_in_only N X (o : cop X) : reads_in N X o -> reads_only X o.
Proof. destruct o; cbn; auto; contradiction. Qed.
Lemma stay_later {A} (ps : list (prog fop A)) s ps1 s1 N a : interleave ps s ps1 s1 -> stay ps s N a -> stay ps1 s1 N a.
Proof. intros Hi H n s2 Hn [ps2 H2]. apply H; [exact Hn|]. exists ps2. eapply interleave_trans; eauto. Qed.
Lemma nobody {A} s s1 : at_some_time (@nil (prog fop A)) s s1 -> s1 = s.
Proof.
  intros [ps1 Hi]. remember (@nil (prog fop A)) as ps eqn:Ep. destruct Hi as [|ps s pa sa pb sb H1 H2]; [reflexivity|].
  destruct H1 as [p0 X o k p1 q]. destruct p0; discriminate Ep.
Qed.
Lemma sees_stay {A} N a (p : prog cop A) : allowed (reads_in N) p -> forall ps s r, sees ps s p r -> stay ps s N a -> r = snd (arun p a).
Proof.
  induction 1 as [x|e|X o k Ho Hk IH]; intros ps s r Hs Hst.
  - exact (sees_lift ps s (Ok x) r Hs).
  - exact (sees_lift ps s (Err e) r Hs).
  - apply sees_one in Hs. destruct Hs as [ps1 [s1 [Hi H]]]. destruct o as [| |n| | | | |]; try contradiction. cbn [reads_in] in Ho.
    assert (Hr : snd (frun (impl (CRead n)) s1) = Ok (alog a n)) by (apply (Hst n s1 Ho); exists ps1; exact Hi).
    destruct H as [[x [H1 H2]]|[e [H1 _]]]; rewrite Hr in H1; [|discriminate H1]. injection H1 as <-.
    change (arun (Vis (CRead n) k) a) with (arun (k (alog a n)) a). eapply IH; [exact H2|]. eapply stay_later; eauto.
Qed.

Ltac al := repeat first [apply allowed_lift|apply allowed_perform; cbn; auto; fail|apply allowed_bind; [|intros ?]|apply al_ret|apply al_raise
                        |match goal with |- allowed _ (if ?b then _ else _) => destruct b | |- allowed _ (match ?b with _ => _ end) => destruct b end].
Lemma in_config (N : text -> Prop) a : N (own_chain a) -> allowed (reads_in N) (own_config a).
Proof. intros H. unfold own_config. al. Qed.
Lemma in_keyhandle (N : text -> Prop) n : N n -> allowed (reads_in N) (r_keyhandle n).
Proof. intros H. unfold r_keyhandle, r_entry_for_encryption, r_ac_entry, r_gossip_entry. al. Qed.
Lemma in_peer (N : text -> Prop) own reply n : N n -> allowed (reads_in N) (r_peer_recommendation own reply n).
Proof.
  intros H. unfold r_peer_recommendation, r_preliminary. repeat first [apply in_keyhandle; exact H|apply allowed_bind; [|intros ?]].
  all: unfold r_has_direct_key, r_last_seen, r_timestamp, r_pref, r_entry_for_encryption, r_ac_entry, r_gossip_entry, r_msg_entry; al.
Qed.
Lemma rec_peers_asked a addrs from n : In n (map snd (rec_peers a addrs from)) -> asked_log a addrs n.
Proof.
  unfold rec_peers.
  assert (H : forall l d, (forall m, In m (map snd d) -> asked_log a addrs m) -> (forall y, In y l -> exists x, In x addrs /\ y = parse_email_addr x) ->
    forall m, In m (map snd (fold_left (fun d y => if otext_eqb (Some y) from then d else dset d y (peerstate_chain a y)) l d)) -> asked_log a addrs m).
  { induction l as [|y l IH]; intros d Hd Hl m; cbn [fold_left]; [apply Hd|]. apply IH; [|intros z Hz; apply Hl; right; exact Hz].
    match goal with |- context [otext_eqb ?x from] => destruct (otext_eqb x from) end; [exact Hd|]. intros m' Hm'.
    assert (Hin : m' = peerstate_chain a y \/ In m' (map snd d)).
    { clear - Hm'. induction d as [|[k v] d IH]; cbn [dset map snd In] in *; [destruct Hm' as [<-|[]]; auto|].
      destruct (text_eqb y k); cbn [map snd In] in *; destruct Hm' as [<-|H]; auto. destruct (IH H); auto. }
    destruct Hin as [->|Hin]; [|apply Hd, Hin]. right. destruct (Hl y (or_introl eq_refl)) as [x [Hx ->]]. exists x. auto. }
  apply (H (map parse_email_addr addrs) []); [intros m []|]. intros y Hy. apply in_map_iff in Hy. destruct Hy as [x [<- Hx]]. eauto.
Qed.
Lemma in_recommend a addrs reply from : allowed (reads_in (asked_log a addrs)) (r_recommend a addrs reply from).
Proof.
  unfold r_recommend. apply allowed_bind; [apply in_config; left; reflexivity|]. intros c.
  apply allowed_bind; [|intros; apply allowed_lift]. apply allowed_mapM. intros n Hn. apply in_peer. eapply rec_peers_asked; eauto.
Qed.
Lemma c87_stay : store_laws -> clock_injective -> load [] = None ->
  forall h cs acct addrs reply from a r ps' s', (forall c, In c cs -> deletes_all c = false) ->
  stay (map (fun c => on_files (exec c)) cs) (files_after h) (asked_log acct addrs) a ->
  interleave (on_files (x <- r_recommend acct addrs reply from ;; Ret (OOptText x)) :: map (fun c => on_files (exec c)) cs) (files_after h)
    (WatchSpec.ended r :: ps') s' -> no_collision s' ->
  r = snd (arun (x <- recommend acct addrs reply from ;; Ret (OOptText x)) a).
Proof.
  intros HL HC HE h cs acct addrs reply from a r ps' s' Hd Hst Hi HN.
  assert (Hp : allowed (reads_in (asked_log acct addrs)) (x <- r_recommend acct addrs reply from ;; Ret (OOptText x))).
  { apply allowed_bind; [apply in_recommend|intros; constructor]. }
  pose proof (c85_calls HL HC HE h cs _ r ps' s' (allowed_weaken _ _ _ (reads_in_only _) Hp) Hd Hi HN) as Hs.
  rewrite (sees_stay _ a _ Hp _ _ _ Hs Hst).
  rewrite (same_bind _ _ _ _ _ _ (same_recommend acct addrs reply from) (fun x => same_refl _ (Ret (OOptText x))) a). reflexivity.
Qed.
Lemma c87_recommend_sees : store_laws -> clock_injective -> load [] = None ->
  forall h cs acct addrs reply from r ps' s', (forall c, In c cs -> deletes_all c = false) ->
  interleave (on_files (x <- r_recommend acct addrs reply from ;; Ret (OOptText x)) :: map (fun c => on_files (exec c)) cs) (files_after h)
    (WatchSpec.ended r :: ps') s' -> no_collision s' ->
  sees (map (fun c => on_files (exec c)) cs) (files_after h) (x <- r_recommend acct addrs reply from ;; Ret (OOptText x)) r.
Proof.
  intros HL HC HE h cs acct addrs reply from r ps' s' Hd Hi HN. eapply c85_calls; eauto.
  apply (allowed_weaken _ _ _ (reads_in_only (asked_log acct addrs))). apply allowed_bind; [apply in_recommend|intros; constructor].
Qed.

(** *** the pieces of "encrypt" *)
Inductive eqp {A} : prog cop A -> prog cop A -> Prop :=
| eq_ret a : eqp (Ret a) (Ret a)
| eq_raise e : eqp (Raise e) (Raise e)
| eq_vis X (o : cop X) k k' : (forall x, eqp (k x) (k' x)) -> eqp (Vis o k) (Vis o k').
Lemma eqp_refl {A} (p : prog cop A) : eqp p p. Proof. induction p; constructor; auto. Qed.
Lemma eqp_assoc {A B C} (p : prog cop A) (f : A -> prog cop B) (g : B -> prog cop C) : eqp (bind (bind p f) g) (bind p (fun x => bind (f x) g)).
Proof. induction p; cbn [bind]; try apply eqp_refl. constructor. auto. Qed.
Lemma sees_eqp {A} (p q : prog cop A) : eqp p q -> forall ps s r, sees ps s p r -> sees ps s q r.
Proof.
  induction 1 as [a|e|X o k k' Hk IH]; auto. intros ps s r Hs. apply sees_one in Hs. destruct Hs as [ps1 [s1 [Hi H]]].
  eapply se_others; [exact Hi|]. destruct H as [[x [H1 H2]]|[e [H1 ->]]]; [eapply se_read; [exact H1|apply IH, H2]|eapply se_failed; exact H1].
Qed.
Lemma sees_assoc {A B C} (p : prog cop A) (f : A -> prog cop B) (g : B -> prog cop C) ps s r : sees ps s (bind (bind p f) g) r -> sees ps s (bind p (fun x => bind (f x) g)) r.
Proof. apply sees_eqp, eqp_assoc. Qed.

Section Pieces.
Context {A : Type}.
Implicit Types (ps : list (prog fop A)).
Lemma sees_read ps s n (f : list block -> prog cop A) y : sees ps s (bind (perform (CRead n)) f) (Ok y) ->
  exists ps1 s1 l, interleave ps s ps1 s1 /\ reads s1 n = Ok l /\ sees ps1 s1 (f l) (Ok y).
Proof.
  intros H. cbn [perform bind] in H. apply sees_one in H. destruct H as [ps1 [s1 [Hi [[x [H1 H2]]|[e [_ H2]]]]]]; [|discriminate H2].
  exists ps1, s1, x. auto.
Qed.
Lemma in_turn_later ps s ps1 s1 fs : interleave ps s ps1 s1 -> in_turn ps1 s1 fs -> in_turn ps s fs.
Proof.
  intros Hi. destruct fs as [|[n P] fs]; [auto|]. intros [ps2 [s2 [l [H1 H2]]]]. exists ps2, s2, l. split; [eapply interleave_trans; eauto|exact H2].
Qed.
Lemma sees_ac ps s n (k : option msg_entry -> prog cop A) y : sees ps s (bind (r_ac_entry n) k) (Ok y) ->
  exists ps1 s1 l, interleave ps s ps1 s1 /\ reads s1 n = Ok l /\ sees ps1 s1 (k (latest_ac_entry l)) (Ok y).
Proof. intros H. apply sees_assoc, sees_read in H. exact H. Qed.
Lemma sees_msg ps s n (k : option msg_entry -> prog cop A) y : sees ps s (bind (r_msg_entry n) k) (Ok y) ->
  exists ps1 s1 l, interleave ps s ps1 s1 /\ reads s1 n = Ok l /\ sees ps1 s1 (k (latest_msg_entry l)) (Ok y).
Proof. intros H. apply sees_assoc, sees_read in H. exact H. Qed.
Lemma sees_gossip ps s n (k : option gossip_entry -> prog cop A) y : sees ps s (bind (r_gossip_entry n) k) (Ok y) ->
  exists ps1 s1 l, interleave ps s ps1 s1 /\ reads s1 n = Ok l /\ sees ps1 s1 (k (latest_gossip_entry l)) (Ok y).
Proof. intros H. apply sees_assoc, sees_read in H. exact H. Qed.
Lemma nonempty_ne {X} (l : list X) : nonempty l = true -> l <> [].
Proof. destruct l; [discriminate|discriminate]. Qed.
(** the entry used for encryption, with what follows *)
Lemma sees_entry ps s n (k : option (msg_entry + gossip_entry) -> prog cop A) y :
  sees ps s (bind (r_entry_for_encryption n) k) (Ok y) ->
  exists ps0 s0 l ps1 s1 x, interleave ps s ps0 s0 /\ reads s0 n = Ok l /\ interleave ps0 s0 ps1 s1 /\ sees ps1 s1 (k x) (Ok y) /\
    forall e, x = Some (inl e) -> latest_ac_entry l = Some e /\ me_kh e <> [].
Proof.
  intros H. unfold r_entry_for_encryption in H. apply sees_assoc, sees_ac in H. destruct H as [ps0 [s0 [l [H1 [H2 H3]]]]].
  exists ps0, s0, l.
  destruct (match latest_ac_entry l with Some e => nonempty (me_kh e) | None => false end) eqn:En.
  - exists ps0, s0, (option_map inl (latest_ac_entry l)). repeat (split; [first [exact H1|exact H2|exact H3|apply il_refl]|]).
    destruct (latest_ac_entry l) as [e|]; [|discriminate En]. intros e' [= <-]. split; [reflexivity|apply nonempty_ne, En].
  - apply sees_assoc, sees_gossip in H3. destruct H3 as [ps2 [s2 [l2 [H4 [H5 H6]]]]].
    exists ps2, s2, (option_map inr (latest_gossip_entry l2)). repeat (split; [first [exact H1|exact H2|exact H4|exact H6]|]).
    destruct (latest_gossip_entry l2); discriminate.
Qed.
Lemma sees_peer ps s own n (k : text -> prog cop A) y :
  (forall ps1 s1 t, sees ps1 s1 (k t) (Ok y) -> t = L "encrypt") ->
  sees ps s (bind (r_peer_recommendation own false n) k) (Ok y) ->
  own = L "mutual" /\ in_turn ps s [(n, direct_key); (n, direct_mutual); (n, last_mail_with_key)].
Proof.
  intros Hk H. unfold r_peer_recommendation in H. apply sees_assoc in H.
  assert (Hx : forall ps1 s1 pre, sees ps1 s1 (bind
     (if (text_eqb pre (L "available") || text_eqb pre (L "discourage")) && false then Ret (L "encrypt")
      else if text_eqb pre (L "available") && text_eqb own (L "mutual")
      then p <- r_pref n;; (if text_eqb p (L "mutual") then e <- r_msg_entry n;;
            match e with | Some e0 => if nonempty (me_keydata e0) then Ret (L "encrypt") else Ret pre | None => Raise AttributeError end else Ret pre)
      else Ret pre) k) (Ok y) -> pre <> L "encrypt" ->
      pre = L "available" /\ own = L "mutual" /\ in_turn ps1 s1 [(n, direct_mutual); (n, last_mail_with_key)]).
  { clear H ps s. intros ps s pre H Hp. rewrite andb_false_r in H.
    destruct (text_eqb pre (L "available") && text_eqb own (L "mutual")) eqn:Eb; [|apply Hk in H; contradiction].
    apply andb_prop in Eb. destruct Eb as [Ea Eb]. destruct (text_eqb_spec own (L "mutual")) as [Ho|]; [|discriminate Eb].
    destruct (text_eqb_spec pre (L "available")) as [Hpa|]; [|discriminate Ea]. split; [exact Hpa|]. split; [exact Ho|].
    unfold r_pref in H. apply sees_assoc, sees_assoc, sees_entry in H. destruct H as [ps0 [s0 [l [ps1 [s1 [x [H1 [H2 [H3 [H4 H5]]]]]]]]]].
    exists ps0, s0, l. split; [exact H1|]. split; [exact H2|]. cbn [bind] in H4.
    match type of H4 with context [text_eqb ?u (L "mutual")] => destruct (text_eqb_spec u (L "mutual")) as [Hm|] end; [|apply Hk in H4; contradiction].
    destruct x as [[e|e]|]; try discriminate Hm. destruct (H5 e eq_refl) as [H6 H7]. split; [exists e; auto|].
    apply (in_turn_later _ _ _ _ _ H3). apply sees_assoc, sees_msg in H4. destruct H4 as [ps2 [s2 [l2 [H8 [H9 H10]]]]].
    exists ps2, s2, l2. split; [exact H8|]. split; [exact H9|]. split; [|exact I].
    destruct (latest_msg_entry l2) as [e2|] eqn:E2; [|cbn [bind] in H10; apply (sees_lift _ _ (Err AttributeError)) in H10; discriminate H10].
    destruct (nonempty (me_keydata e2)) eqn:En; [exists e2; split; [exact E2|apply nonempty_ne, En]|]. apply Hk in H10. contradiction. }
  unfold r_preliminary in H. unfold r_keyhandle at 1 in H. apply sees_assoc, sees_assoc, sees_entry in H.
  destruct H as [pa [sa [la [pb [sb [xa [Ha1 [_ [Ha2 [H _]]]]]]]]]]. cbn [bind] in H.
  unfold r_keyhandle in H. apply sees_assoc, sees_assoc, sees_entry in H.
  destruct H as [pc [sc [lc [pd [sd [xc [Hc1 [_ [Hc2 [H _]]]]]]]]]]. cbn [bind] in H.
  assert (Hi : interleave ps s pd sd) by (eapply interleave_trans; [exact Ha1|]; eapply interleave_trans; [exact Ha2|]; eapply interleave_trans; eauto).
  match type of H with context [negb (nonempty ?u)] => destruct (negb (nonempty u)) end.
  { cbn [bind] in H. apply Hx in H; [|discriminate]. destruct H as [H _]. discriminate H. }
  unfold r_has_direct_key in H. apply sees_assoc, sees_assoc, sees_ac in H. destruct H as [pe [se [le [He1 [He2 H]]]]]. cbn [bind] in H.
  destruct (match latest_ac_entry le with Some e => nonempty (me_kh e) | None => false end) eqn:Ed; cbn [negb] in H.
  2:{ cbn [bind] in H. apply Hx in H; [|discriminate]. destruct H as [H _]. discriminate H. }
  unfold r_last_seen in H. apply sees_assoc, sees_assoc, sees_msg in H. destruct H as [pf [sf [lf [Hf1 [_ H]]]]]. cbn [bind] in H.
  unfold r_timestamp in H. apply sees_assoc, sees_assoc, sees_ac in H. destruct H as [pg [sg [lg [Hg1 [_ H]]]]]. cbn [bind] in H.
  match type of H with context [Z.ltb ?u ?v] => destruct (Z.ltb u v) end.
  { cbn [bind] in H. apply Hx in H; [|discriminate]. destruct H as [H _]. discriminate H. }
  cbn [bind] in H. apply Hx in H; [|discriminate]. destruct H as [_ [Ho H]]. split; [exact Ho|].
  exists pe, se, le. split; [eapply interleave_trans; eauto|]. split; [exact He2|]. split.
  - destruct (latest_ac_entry le) as [e|] eqn:Ee; [|discriminate Ed]. exists e. split; [exact Ee|apply nonempty_ne, Ed].
  - apply (in_turn_later _ _ _ _ _ Hf1). apply (in_turn_later _ _ _ _ _ Hg1). exact H.
Qed.
End Pieces.
Lemma c87_pieces : store_laws -> clock_injective -> load [] = None ->
  forall h cs acct y ps' s', (forall c, In c cs -> deletes_all c = false) ->
  interleave (on_files (x <- r_recommend acct [y] false None ;; Ret (OOptText x)) :: map (fun c => on_files (exec c)) cs) (files_after h)
    (WatchSpec.ended (Ok (OOptText (Some (L "encrypt")))) :: ps') s' -> no_collision s' ->
  let n := peerstate_chain acct (parse_email_addr y) in
  in_turn (map (fun c => on_files (exec c)) cs) (files_after h)
    [(own_chain acct, own_mutual); (n, direct_key); (n, direct_mutual); (n, last_mail_with_key)].
Proof.
  intros HL HC HE h cs acct y ps' s' Hd Hi HN. cbv zeta.
  pose proof (c87_recommend_sees HL HC HE h cs acct [y] false None _ ps' s' Hd Hi HN) as H. clear Hi HN.
  unfold r_recommend in H. apply sees_assoc in H. unfold own_config in H. apply sees_assoc, sees_read in H.
  destruct H as [ps1 [s1 [l [H1 [H2 H3]]]]]. exists ps1, s1, l. split; [exact H1|]. split; [exact H2|].
  destruct (latest_config l) as [c|] eqn:Ec; cbn [bind] in H3; [|apply (sees_lift _ _ (Err AttributeError)) in H3; discriminate H3].
  change (map snd (rec_peers acct [y] None)) with [peerstate_chain acct (parse_email_addr y)] in H3. cbn [mapM] in H3.
  apply sees_assoc, sees_assoc in H3.
  match type of H3 with sees _ _ (bind _ ?k) _ => assert (Hk : forall ps1 s1 t, sees ps1 s1 (k t) (Ok (OOptText (Some (L "encrypt")))) -> t = L "encrypt") end.
  { intros p1 q1 t Hs. cbn [bind aggregate lift] in Hs. apply (sees_lift _ _ (Ok _)) in Hs. 
    match type of Hs with context [find ?f ?l] => assert (Hf : find f l = Some (L "encrypt")) by congruence end. clear Hs. rename Hf into Hs. apply find_some in Hs. destruct Hs as [_ Hs]. cbn [mem_text existsb] in Hs.
    rewrite orb_false_r in Hs. match type of Hs with text_eqb ?u ?v = true => destruct (text_eqb_spec u v) as [He|]; [symmetry; exact He|discriminate Hs] end. }
  destruct (sees_peer _ _ _ _ _ _ Hk H3) as [Ho Ht].
  split; [exists c; auto|exact Ht].
Qed.
End ReadsProofs.
