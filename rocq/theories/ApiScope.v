(** The scope of every API call, and: every API call is a path of guarded steps in its scope. *)
From Verif Require Import Base PyStr Env Prog Chain Gpg Mime States Recommendation Account Cmdline Bot Fs Api Steps StepFacts Exec.

Section ApiScope.
Context {E : Env}.

Definition sc_v (l : label) : Prop := l = LVersion.
Definition sc_a (n : text) (l : label) : Prop := l = LVersion \/ sc_gpg n l.
(** only reading the clock, drawing ids, initialising and calling gpg *)
Definition sc_any (l : label) : Prop :=
  match l with LVersion | LTick | LUuid | LGpg _ _ _ _ => True | _ => False end.

Definition new_cfg (n : text) (regex : option text) (gpgbin gpgmode : text) : cfg_entry :=
  CfgEntry (L "nopreference") n (match regex with Some r => r | None => L ".*" end) gpgmode gpgbin.
Definition sc_add (n : text) (c : cfg_entry) (l : label) : Prop :=
  match l with
  | LVersion | LUuid => True
  | LGpg b _ _ _ => b = n
  | LCfg b c' => b = n /\ c' = c
  | LKeygen b _ _ => b = n
  | _ => False
  end.
(** what mod_account writes: the given settings, on top of some configuration *)
Definition sc_mod (n : text) (regex bin pref : option text) (l : label) : Prop :=
  match l with
  | LVersion => True
  | LCfg b c => b = n /\ (forall r, regex = Some r -> cf_regex c = r) /\
                (forall x, bin = Some x -> cf_bin c = x) /\ (forall p, pref = Some p -> cf_pref c = p)
  | _ => False
  end.

Definition api_scope (c : api) (l : label) : Prop :=
  match c with
  | AAdd n regex kh bin mode => sc_add n (new_cfg n regex bin mode) l
  | AMod n regex kh bin pref => sc_mod n regex bin pref l
  | ADel n => l = LVersion \/ l = LRemove n
  | AFind _ _ | AList | ARoute _ => l = LVersion
  | ARemove => l = LRm
  | AIncoming n m ign nodec => l = LVersion \/ inc_scope n m nodec l
  | AOutgoing n _ | AEncrypt n _ _ | ADecrypt n _ | AHeader n _ | AExportPub n _ | AExportSec n => sc_a n l
  | ARecommend n _ _ | APeer n _ | APeers n | AOwn n | AGetVerif n _ => l = LVersion
  | AImport n addr kd pref => l = LVersion \/ imp_scope n pref addr l
  | AVerifySelf n addr pk => l = LVersion \/ l = LVerif n (VerifEntry addr pk (L "self"))
  | AVerifyPeer n addr pk => l = LVersion \/ l = LVerif n (VerifEntry addr pk (L "peer"))
  | ACliAdd n sys key bin regex => sc_add n (new_cfg n regex bin (if sys then L "system" else L "own")) l
  | ACliMod n key bin regex pref =>
      sc_mod n regex (Some (match bin with Some b => b | None => L "gpg" end)) pref l \/ sc_gpg n l
  | ACliDel n => l = LRemove n \/ sc_any l
  | ACliDestroy yes => yes = true /\ l = LRm
  | ACliStatus _ => sc_any l
  | ACliIncoming name reparse nodec m =>
      l = LVersion \/ exists a, (forall n, name = Some n -> a = n) /\ inc_scope a m nodec l
  | ACliScandir reparse files => sc_any l \/ exists a mtime m, In (mtime, m) files /\ inc_scope a m false l
  | ACliOutgoing m => sc_any l
  | ACliPeerstate n _ => l = LVersion
  | ABot fb body m => sc_any l \/ exists a, inc_scope a m false l
  end.

Let TT : ast -> Prop := fun _ => True.
Lemma stable_TT Sc : stable TT Sc. Proof. intros s l _ _ _ _. exact I. Qed.

Lemma inv_tick (I : ast -> Prop) (Sc : label -> Prop) : stable I Sc -> Sc LTick -> inv I Sc (perform CTime) (fun _ => True).
Proof. intros H1 H2. apply (inv_label _ _ LTick); [exact H1|exact H2|intros; exact Logic.I|intros s _ _; split; [reflexivity|auto]|intros s; apply atomic_perform]. Qed.
Lemma inv_uuid (I : ast -> Prop) (Sc : label -> Prop) : stable I Sc -> Sc LUuid -> inv I Sc (perform CUuid) (fun _ => True).
Proof. intros H1 H2. apply (inv_label _ _ LUuid); [exact H1|exact H2|intros; exact Logic.I|intros s _ _; split; [reflexivity|auto]|intros s; apply atomic_perform]. Qed.
Lemma inv_rm (Sc : label -> Prop) : Sc LRm -> inv TT Sc (perform CRmTree) (fun _ => True).
Proof. intros H2. apply (inv_label _ _ LRm); [apply stable_TT|exact H2|intros; exact Logic.I|intros s _ _; split; [reflexivity|auto]|intros s; apply atomic_perform]. Qed.

Ltac weak := eapply inv_conseq; [| |eassumption].

(** ** add *)
Definition fresh_ctx (n : text) (c : cfg_entry) (s : ast) : Prop := config_of s n = Some c /\ keygen_of s n = None.
Definition sc_gu (n : text) (l : label) : Prop := match l with LUuid => True | LGpg b _ _ _ => b = n | _ => False end.

Lemma fresh_stable n c : stable (fresh_ctx n c) (sc_gu n).
Proof.
  intros s l Hw Hg Hl [H1 H2]. unfold fresh_ctx, config_of, keygen_of.
  rewrite step_frame; [split; assumption|]. destruct l; simpl in *; tauto.
Qed.

Lemma inv_fresh_bingpg n c : inv (fresh_ctx n c) (sc_gu n) (get_bingpg n) (fun g => made_for g c n).
Proof.
  unfold get_bingpg, own_config. eapply inv_bind with (Q1 := fun c' => c' = c).
  - eapply inv_bind; [apply inv_read with (Q := fun l => latest_config l = Some c)|].
    + intros s _ [H _]. exact H.
    + intros l ->. apply inv_ret. reflexivity.
  - intros c' ->. unfold made_for, home_of.
    destruct (nonempty _); [|apply inv_raise]. cbn [negb].
    destruct (text_eqb _ _); [apply inv_lift; intros g; apply mk_bingpg_made|].
    destruct (text_eqb _ _); [apply inv_lift; intros g; apply mk_bingpg_made|]. apply inv_raise.
Qed.

Lemma keygen_config s n : WF s -> keygen_of s n <> None -> config_of s n <> None.
Proof.
  intros Hw Hk. destruct (wf_own s Hw n) as [H0|[_ H0]].
  - unfold keygen_of in Hk. rewrite H0 in Hk. exfalso; apply Hk; reflexivity.
  - apply own_ok_config in H0. destruct H0 as [c [H1 _]]. unfold config_of. congruence.
Qed.

Lemma config_app_cfg s n c : config_of (app_log s (own_chain n) (ECfg c)) n = Some c.
Proof. unfold config_of. rewrite alog_app, text_eqb_refl. reflexivity. Qed.
Lemma keygen_app_cfg s n c : keygen_of (app_log s (own_chain n) (ECfg c)) n = keygen_of s n.
Proof. unfold keygen_of. rewrite alog_app, text_eqb_refl. reflexivity. Qed.
Lemma config_app_keygen s n kd kh : config_of (app_log s (own_chain n) (EKeygen (KeygenEntry kd kh))) n = config_of s n.
Proof. unfold config_of. rewrite alog_app, text_eqb_refl. reflexivity. Qed.
Lemma keygen_app_keygen s n kd kh : keygen_of (app_log s (own_chain n) (EKeygen (KeygenEntry kd kh))) n = Some (KeygenEntry kd kh).
Proof. unfold keygen_of. rewrite alog_app, text_eqb_refl. reflexivity. Qed.

Lemma triple_bind_inv {A B} (I : ast -> Prop) (Sc1 Sc : label -> Prop) (p : prog cop A) (f : A -> prog cop B)
  (Q1 : A -> Prop) (Post : B -> ast -> Prop) (Ex : ast -> Prop) :
  inv I Sc1 p Q1 -> (forall l, Sc1 l -> Sc l) -> (forall s, I s -> Ex s) ->
  (forall a, Q1 a -> triple I Sc (f a) Post Ex) -> triple I Sc (bind p f) Post Ex.
Proof.
  intros H1 H2 H3 H4. eapply triple_bind.
  - eapply triple_conseq; [| | | |exact H1]; auto. intros a s _ H. exact H.
  - intros a s Hw [Hs Hq]. apply (H4 a Hq s Hw Hs).
Qed.

Lemma triple_create n regex kh bin mode :
  isalnum n = true ->
  triple (fun s => keygen_of s n = None /\ version_of s <> None) (sc_add n (CfgEntry (L "nopreference") n regex mode bin))
    (create n regex kh bin mode)
    (fun _ s => config_of s n = Some (CfgEntry (L "nopreference") n regex mode bin) /\ exists_acct s n)
    (fun _ => True).
Proof.
  intros Hn. set (c := CfgEntry (L "nopreference") n regex mode bin). unfold create. fold c.
  assert (Hsub : forall l, sc_gu n l -> sc_add n c l) by (intros []; simpl; tauto).
  eapply triple_bind_inv; [apply (inv_assert _ (sc_gu n))|exact Hsub|auto|]. intros [] Hm.
  eapply triple_bind with (Mid := fun _ s => fresh_ctx n c s).
  { unfold new_config. intros s Hw [Hk Hve].
    assert (Hv : valid_cfg c = true).
    { unfold valid_cfg. simpl. unfold valid_mode. apply mem_text_In in Hm. apply mem_text_In. simpl in *. tauto. }
    unfold mk_cfg_entry. fold (valid_cfg c). rewrite Hv. cbn [lift bind].
    enough (Hend : ends_well (sc_add n c) (perform (CAppend (own_chain n) (ECfg c))) (fun _ s => fresh_ctx n c s) (fun _ => True) s)
      by (split; [exact Hend|eapply atomic_stops; [apply atomic_perform|exact Hend]]).
    unfold ends_well. rewrite arun_append. cbn [fst snd].
    exists [LCfg n c]. split; [|split; [|split]].
    - constructor; [|constructor]. simpl. split; [exact Hve|]. split; [exact Hn|]. split; [exact Hv|]. split; [reflexivity|]. left; exact Hk.
    - repeat constructor.
    - apply (step_WF s Hw (LCfg n c)). simpl. split; [exact Hve|]. auto.
    - split; [apply config_app_cfg | rewrite keygen_app_cfg; exact Hk]. }
  intros [].
  assert (HI : forall s, fresh_ctx n c s -> config_of s n = Some c) by (intros s [H _]; exact H).
  assert (HSt := fresh_stable n c).
  assert (HSg : forall l, sc_gpg n l -> sc_gu n l) by (intros []; simpl; tauto).
  eapply triple_bind_inv with (Sc1 := sc_gu n) (Q1 := fun _ => True); [|exact Hsub|auto|].
  { destruct kh as [h|].
    - eapply inv_bind; [apply inv_fresh_bingpg|]. intros g Hg.
      eapply inv_bind; [gl inv_get_secret_keyhandle|]. intros r _. destruct r; [apply inv_ret; exact I | apply inv_raise].
    - eapply inv_bind with (Q1 := fun id => exists k, id = uuid_hex k).
      { apply inv_label with (l := LUuid); auto; simpl; auto; [|intros; apply atomic_perform]. intros s Hw Hs. split; [reflexivity|]. intros x [= <-]. eauto. }
      intros id [k ->]. eapply inv_bind; [apply inv_fresh_bingpg|]. intros g Hg. gl inv_gen_secret_key. }
  intros kh' _.
  eapply triple_bind_inv with (Sc1 := sc_gu n); [apply inv_fresh_bingpg|exact Hsub|auto|]. intros g Hg.
  eapply triple_bind_inv with (Sc1 := sc_gu n); [gl inv_get_secret_keydata|exact Hsub|auto|]. intros kd _.
  intros s Hw [H1 H2].
  match goal with |- ends_well ?sc ?p ?q ?x s /\ _ => enough (Hend : ends_well sc p q x s) by (split; [exact Hend|eapply atomic_stops; [apply atomic_perform|exact Hend]]) end.
  unfold ends_well, append_keygen. rewrite arun_append. cbn [fst snd].
  exists [LKeygen n kd kh']. split; [|split; [|split]].
  - constructor; [|constructor]. simpl. rewrite H1. repeat split; auto; discriminate.
  - repeat constructor.
  - apply (step_WF s Hw (LKeygen n kd kh')). simpl. rewrite H1. repeat split; auto; discriminate.
  - rewrite config_app_keygen. split; [exact H1|]. exists c, (KeygenEntry kd kh').
    rewrite config_app_keygen, keygen_app_keygen. auto.
Qed.

Lemma triple_ensure_init (Sc : label -> Prop) : Sc LVersion ->
  triple TT Sc ensure_init (fun _ s => version_of s <> None) TT.
Proof.
  intros HSc s Hw _. destruct (inv_ensure_init TT Sc (stable_TT Sc) HSc s Hw I) as [[ls [H1 [H2 [H3 H4]]]] Hst]. split; [|exact Hst].
  exists ls. split; [exact H1|]. split; [exact H2|]. split; [exact H3|].
  rewrite arun_ensure_init. destruct (version_of s) eqn:Ev; simpl; [congruence|].
  unfold version_of. rewrite alog_app, text_eqb_refl. discriminate.
Qed.

Lemma triple_add_account n regex kh bin mode :
  triple TT (sc_add n (new_cfg n regex bin mode)) (add_account n regex kh bin mode)
    (fun a s => a = n /\ isalnum n = true /\ config_of s n = Some (new_cfg n regex bin mode) /\ exists_acct s n) TT.
Proof.
  unfold add_account, get_account.
  eapply triple_bind with (Mid := fun a s => version_of s <> None /\ a = n /\ isalnum n = true).
  - eapply triple_bind; [apply triple_ensure_init; exact I|]. intros [].
    eapply triple_bind_inv; [apply (inv_assert _ (fun l => l = LVersion))|intros l ->; exact I|intros; exact I|]. intros [] Hn.
    apply triple_ret; auto.
  - intros a. eapply triple_bind with (Mid := fun b s => version_of s <> None /\ a = n /\ isalnum n = true /\ b = is_configured (alog s (own_chain n))).
    + intros s Hw [Hve [-> Hn]]. split; [|apply quiet_stops; intros m; apply stop_exists]. exists []. simpl. split; [constructor|]. split; [constructor|]. auto.
    + intros b s Hw [Hve [-> [Hn Hb]]]. destruct b; [apply (triple_raise (fun _ => True) _ AccountExists (fun _ _ => True)); auto; exact I|].
      assert (Hk : keygen_of s n = None).
      { destruct (keygen_of s n) eqn:Ek; [|reflexivity].
        assert (Hc : config_of s n <> None) by (apply keygen_config; [exact Hw|congruence]).
        unfold is_configured in Hb. unfold config_of in Hc. unfold keygen_of in Ek. rewrite Ek in Hb.
        destruct (latest_config _); [discriminate|congruence]. }
      revert s Hw Hve Hb Hk.
      enough (HT : triple (fun s => keygen_of s n = None /\ version_of s <> None) (sc_add n (new_cfg n regex bin mode))
        (create n match regex with Some r => r | None => L ".*" end kh bin mode;;; Ret n)
        (fun a s => a = n /\ isalnum n = true /\ config_of s n = Some (new_cfg n regex bin mode) /\ exists_acct s n) TT).
      { intros s Hw Hve _ Hk. apply (HT s Hw (conj Hk Hve)). }
      eapply triple_bind; [apply triple_create; exact Hn|]. intros []. apply triple_ret.
      intros s _ [H1 H2]. auto.
Qed.

(** ** mod *)
Definition evolve (c : cfg_entry) (pref regex bin : option text) : cfg_entry :=
  CfgEntry (match pref with Some p => p | None => cf_pref c end) (cf_name c)
           (match regex with Some r => r | None => cf_regex c end) (cf_mode c)
           (match bin with Some b => b | None => cf_bin c end).

Lemma arun_change_config a pref regex bin s : arun (change_config a pref regex bin) s =
  match config_of s a with
  | None => (s, Err TypeError)
  | Some c =>
    if valid_cfg (evolve c pref regex bin) then
      if cfg_eqb (evolve c pref regex bin) c then (s, Ok false)
      else (app_log s (own_chain a) (ECfg (evolve c pref regex bin)), Ok true)
    else (s, Err ValueError)
  end.
Proof.
  unfold change_config. rewrite arun_bind. unfold arun at 1. cbn [perform run astep].
  unfold config_of. destruct (latest_config _) as [c|]; [|reflexivity]. fold (evolve c pref regex bin).
  unfold mk_cfg_entry. fold (valid_cfg (evolve c pref regex bin)).
  destruct (valid_cfg _); cbn [lift bind]; [|reflexivity].
  destruct (cfg_eqb _ _); reflexivity.
Qed.

Lemma atomic_change_config a pref regex bin s : atomic (change_config a pref regex bin) s.
Proof.
  unfold change_config. apply atomic_bind; [intros; apply stop_read|]. intros l _.
  destruct (latest_config l); [|apply atomic_raise]. cbv zeta. apply atomic_bind; [intros; apply stop_lift|]. intros e _.
  destruct (cfg_eqb _ _); [apply atomic_ret|]. apply atomic_then; [apply atomic_perform|intros; apply stop_ret].
Qed.
Lemma triple_mod_account n regex kh bin pref :
  triple TT (sc_mod n regex bin pref) (mod_account n regex kh bin pref)
    (fun r s => snd r = n /\ isalnum n = true /\ exists_acct s n) TT.
Proof.
  unfold mod_account. eapply triple_bind; [apply triple_get_account; [apply stable_TT|exact I]|].
  intros a s Hw [_ [-> [Hn [c [kg [Hc Hk]]]]]].
  match goal with |- ends_well ?sc ?p ?q ?x s /\ _ => enough (Hend : ends_well sc p q x s)
    by (split; [exact Hend|eapply atomic_stops; [apply atomic_then; [apply atomic_change_config|intros; apply stop_ret]|exact Hend]]) end.
  unfold ends_well. rewrite arun_bind, arun_change_config, Hc. set (c' := evolve c pref regex bin).
  destruct (valid_cfg c') eqn:Hv.
  - destruct (cfg_eqb c' c).
    + cbn. exists []. split; [constructor|]. split; [constructor|]. split; [exact Hw|].
      split; [reflexivity|]. split; [exact Hn|]. exists c, kg. auto.
    + cbn [arun run fst snd].
      destruct (wf_own s Hw n) as [H0|[_ H0]]; [unfold config_of in Hc; rewrite H0 in Hc; discriminate|].
      destruct (own_ok_config _ _ H0) as [c1 [Hc1 [Hv1 Hn1]]]. unfold config_of in Hc. rewrite Hc in Hc1. injection Hc1 as <-.
      assert (Hg : guard s (LCfg n c')).
      { simpl. split; [apply (config_version s Hw n); unfold config_of; congruence|].
        split; [exact Hn|]. split; [exact Hv|]. split; [exact Hn1|]. right. exists c. auto. }
      exists [LCfg n c']. split; [|split; [|split]].
      * constructor; [exact Hg|constructor].
      * constructor; [|constructor]. simpl. split; [reflexivity|].
        repeat split; intros ? ->; reflexivity.
      * apply (step_WF s Hw (LCfg n c') Hg).
      * split; [reflexivity|]. split; [exact Hn|]. exists c', kg. rewrite config_app_cfg, keygen_app_cfg. auto.
  - cbn. exists []. split; [constructor|]. split; [constructor|]. split; [exact Hw|]. exact I.
Qed.

(** ** lookup *)
Lemma inv_own_config_any (I : ast -> Prop) (Sc : label -> Prop) a : inv I Sc (own_config a) (fun _ => True).
Proof.
  unfold own_config. eapply inv_bind; [apply inv_read with (Q := fun _ => True); auto|]. intros l _.
  destruct (latest_config l); [apply inv_ret; exact Logic.I | apply inv_raise].
Qed.
Lemma inv_list_names (I : ast -> Prop) (Sc : label -> Prop) : inv I Sc list_account_names (fun _ => True).
Proof.
  unfold list_account_names, get_account_names.
  eapply inv_bind; [apply inv_heads with (Q := fun _ => True); auto|]. intros; apply inv_ret; exact Logic.I.
Qed.
Lemma inv_get_account (I : ast -> Prop) (Sc : label -> Prop) n : stable I Sc -> Sc LVersion ->
  inv I Sc (get_account n true) (fun a => a = n /\ isalnum n = true).
Proof.
  intros H1 H2. eapply triple_conseq; [| | | |apply (triple_get_account I Sc n H1 H2)]; auto. simpl. tauto.
Qed.
Lemma inv_account_loop (Sc : label -> Prop) names adr : Sc LVersion -> inv TT Sc (account_loop names adr) (fun _ => True).
Proof.
  intros HSc. induction names as [|n names IH]; cbn [account_loop]; [apply inv_ret; exact I|].
  eapply inv_bind; [apply inv_get_account; [apply stable_TT|exact HSc]|]. intros a _.
  eapply inv_bind; [apply inv_own_config_any|]. intros c _.
  eapply inv_bind; [apply inv_lift with (Q := fun _ => True); auto|]. intros b _.
  destruct b; [apply inv_ret; exact I | exact IH].
Qed.
Lemma inv_from_emailadr (Sc : label -> Prop) adr r : Sc LVersion -> inv TT Sc (get_account_from_emailadr adr r) (fun _ => True).
Proof.
  intros HSc. unfold get_account_from_emailadr. eapply inv_bind; [apply inv_list_names|]. intros names _.
  eapply inv_bind; [apply inv_account_loop; exact HSc|]. intros [a|] _; [apply inv_ret; exact I|].
  destruct r; [apply inv_raise | apply inv_ret; exact I].
Qed.
Lemma inv_get_matching (Sc : label -> Prop) m : Sc LVersion -> inv TT Sc (get_matching_account m) (fun _ => True).
Proof.
  intros HSc. unfold get_matching_account. eapply inv_bind; [apply inv_list_names|]. intros names _.
  eapply inv_bind; [apply inv_mapM with (Q := fun _ => True); intros n _|].
  - eapply inv_bind; [apply inv_get_account; [apply stable_TT|exact HSc]|]. intros a _.
    eapply inv_bind; [apply inv_own_config_any|]. intros; apply inv_ret; exact I.
  - intros l _. eapply inv_bind; [apply inv_lift with (Q := fun _ => True); auto|]. intros [a|] _; [apply inv_ret; exact I|].
    eapply inv_bind; [apply inv_lift with (Q := fun _ => True); auto|]. intros d _.
    eapply inv_bind; [apply inv_from_emailadr; exact HSc|]. intros [a|] _; [apply inv_ret; exact I|apply inv_raise].
Qed.

(** ** status *)
Lemma ctx_TT {A} (Sc : label -> Prop) a c k (p : prog cop A) (Q : A -> Prop) s :
  inv (ctx a c k) Sc p Q -> WF s -> config_of s a = Some c -> k <= a_tick s ->
  exists ls, path s ls (fst (arun p s)) /\ Forall Sc ls /\ WF (fst (arun p s)) /\
    match snd (arun p s) with Ok x => config_of (fst (arun p s)) a = Some c /\ Q x | Err _ => True end.
Proof.
  intros H Hw Hc Hk. destruct (H s Hw (conj Hc Hk)) as [[ls [H1 [H2 [H3 H4]]]] _].
  exists ls. split; [exact H1|]. split; [exact H2|]. split; [exact H3|].
  destruct (snd (arun p s)); [|exact I]. destruct H4 as [[H5 _] H6]. auto.
Qed.

Lemma inv_status_account (Sc : label -> Prop) a c k v : isalnum a = true ->
  (forall l, Sc l -> not_own a l) -> (forall l, sc_gpg a l -> Sc l) ->
  inv (ctx a c k) Sc (cli_status_account a v) (fun _ => True).
Proof.
  intros Ha HQ HSg. unfold cli_status_account.
  eapply inv_bind; [apply inv_own_config_any|]. intros c' _.
  eapply inv_bind; [apply inv_get_bingpg; auto|]. intros g Hg.
  eapply inv_bind; [apply inv_own_keyhandle; auto|]. intros kh _.
  eapply inv_bind; [gl inv_list_pub|]. intros infos _.
  eapply inv_bind with (Q1 := fun _ => True); [|intros; apply inv_ret; exact I].
  destruct v; [|apply inv_ret; exact I].
  eapply inv_bind with (Q1 := fun _ => True).
  - unfold get_peername_list. eapply inv_bind; [apply inv_heads with (Q := fun _ => True); auto|]. intros; apply inv_ret; exact I.
  - intros names _. eapply inv_bind; [apply inv_mapM with (Q := fun _ => True); intros n _|intros; apply inv_ret; exact I].
    unfold status_peer_line. eapply inv_bind; [apply inv_read with (Q := fun _ => True); auto|]. intros l _.
    destruct (Z.eqb _ _); [apply inv_ret; exact I|]. destruct (nonempty _); apply inv_ret; exact I.
Qed.

Lemma inv_with_account' {A} (Sc : label -> Prop) n (f : text -> prog cop A) :
  Sc LVersion ->
  (forall c k, isalnum n = true -> inv (ctx n c k) Sc (f n) (fun _ => True)) ->
  inv TT Sc (a <- get_account n true ;; f a) (fun _ => True).
Proof. apply inv_with_account. Qed.

Lemma sc_any_not_own a l : sc_any l -> not_own a l.
Proof. unfold not_own. destruct l; simpl; try tauto. intros _. apply own_mgr. Qed.
Lemma sc_any_gpg a l : sc_gpg a l -> sc_any l.
Proof. destruct l; simpl; tauto. Qed.

Lemma inv_cli_status v : inv TT sc_any (cli_status v) (fun _ => True).
Proof.
  unfold cli_status. eapply inv_bind; [apply inv_list_names|]. intros names _.
  eapply inv_true, inv_mapM. intros n _. apply inv_with_account'; [exact I|].
  intros c k Hn. apply inv_status_account; [exact Hn|apply sc_any_not_own|apply sc_any_gpg].
Qed.

(** ** combinators for calls *)
Lemma inv_finish {A B} (I : ast -> Prop) (Sc : label -> Prop) (p : prog cop A) (f : A -> B) Q :
  inv I Sc p Q -> inv I Sc (x <- p ;; Ret (f x)) (fun _ => True).
Proof. intros H. eapply inv_bind; [exact H|]. intros; apply inv_ret; exact Logic.I. Qed.

Lemma inv_sub {A} (I : ast -> Prop) (Sc Sc' : label -> Prop) (p : prog cop A) (Q : A -> Prop) :
  (forall l, Sc l -> Sc' l) -> inv I Sc p Q -> inv I Sc' p Q.
Proof. intros H. apply inv_conseq; auto. Qed.

Lemma inv_TT_ctx {A} (Sc : label -> Prop) a (p : prog cop A) :
  isalnum a = true -> (forall c k, inv (ctx a c k) Sc p (fun _ => True)) ->
  triple (fun s => exists_acct s a) Sc p (fun _ _ => True) TT.
Proof.
  intros Ha H s Hw [c [kg [Hc Hk]]]. destruct (ctx_TT Sc a c 0 p _ s (H c 0) Hw Hc ltac:(lia)) as [ls [H1 [H2 [H3 H4]]]].
  split; [|apply (H c 0 s Hw); split; [exact Hc|lia]].
  exists ls. split; [exact H1|]. split; [exact H2|]. split; [exact H3|]. destruct (snd (arun p s)); exact I.
Qed.

Lemma triple_TT {A} (Sc : label -> Prop) (p : prog cop A) :
  triple TT Sc p (fun _ _ => True) TT -> inv TT Sc p (fun _ => True).
Proof. intros H. eapply triple_conseq; [| | | |exact H]; simpl; auto; firstorder. Qed.

(** routing returns existing accounts *)
Lemma triple_account_loop (Sc : label -> Prop) names adr : Sc LVersion ->
  triple TT Sc (account_loop names adr)
    (fun r s => match r with Some a => isalnum a = true /\ exists_acct s a | None => True end) TT.
Proof.
  intros HSc. induction names as [|n names IH]; cbn [account_loop]; [apply triple_ret; auto|].
  eapply triple_bind; [apply triple_get_account; [apply stable_TT|exact HSc]|]. intros a s Hw [_ [-> [Hn He]]].
  revert s Hw He.
  enough (HT : triple (fun s => exists_acct s n) Sc
     (c <- own_config n ;; b <- lift (re_match (cf_regex c) adr) ;; if b then Ret (Some n) else account_loop names adr)
     (fun r s => match r with Some a => isalnum a = true /\ exists_acct s a | None => True end) TT) by exact HT.
  eapply triple_bind_inv; [apply (inv_own_config_any _ Sc)|auto|intros; exact I|]. intros c _.
  eapply triple_bind_inv; [apply (inv_lift _ Sc) with (Q := fun _ => True); auto|auto|intros; exact I|]. intros b _.
  destruct b; [apply triple_ret; auto|]. eapply triple_conseq; [| | | |exact IH]; auto. intros; exact I.
Qed.
Lemma triple_from_emailadr (Sc : label -> Prop) adr r : Sc LVersion ->
  triple TT Sc (get_account_from_emailadr adr r)
    (fun r s => match r with Some a => isalnum a = true /\ exists_acct s a | None => True end) TT.
Proof.
  intros HSc. unfold get_account_from_emailadr.
  eapply triple_bind_inv; [apply (inv_list_names TT Sc)|auto|auto|]. intros names _.
  eapply triple_bind; [apply triple_account_loop; exact HSc|]. intros [a|]; [apply triple_ret; auto|].
  destruct r; [apply triple_raise; auto; intros; exact I|apply triple_ret; auto].
Qed.

Lemma exists_acct_own s s' a : alog s' (own_chain a) = alog s (own_chain a) -> exists_acct s a -> exists_acct s' a.
Proof. unfold exists_acct, config_of, keygen_of. intros ->. auto. Qed.

Lemma first_match_In l adr a : first_match l adr = Ok (Some a) -> In a (map snd l).
Proof.
  induction l as [|[r b] l IH]; simpl; [discriminate|]. destruct (re_match r (lower adr)) as [[]|]; simpl; try discriminate; auto.
  intros [= <-]; auto.
Qed.
Lemma match_addrs_In l adrs a : match_addrs l adrs = Ok (Some a) -> In a (map snd l).
Proof.
  induction adrs as [|x adrs IH]; simpl; [discriminate|]. destruct (first_match l x) as [[b|]|] eqn:Ef; simpl; try discriminate; auto.
  intros [= <-]. eapply first_match_In; eauto.
Qed.

Lemma triple_get_matching (Sc : label -> Prop) m : Sc LVersion -> (forall a l, Sc l -> not_own a l) ->
  triple TT Sc (get_matching_account m) (fun a s => isalnum a = true /\ exists_acct s a) TT.
Proof.
  intros HSc HQ. unfold get_matching_account.
  eapply triple_bind_inv; [apply (inv_list_names TT Sc)|auto|auto|]. intros names _.
  set (ok := fun (l : list (text * text)) (s : ast) => forall a, In a (map snd l) -> isalnum a = true /\ exists_acct s a).
  eapply triple_bind with (Mid := ok).
  - induction names as [|n names IH]; cbn [mapM]; [apply triple_ret; intros s _ _ a []|].
    eapply triple_bind with (Mid := fun (x : text * text) s => isalnum (snd x) = true /\ exists_acct s (snd x)).
    + eapply triple_bind; [apply triple_get_account; [apply stable_TT|exact HSc]|]. intros a s Hw [_ [-> [Hn He]]].
      revert s Hw He.
      enough (HT : triple (fun s => exists_acct s n) Sc (c <- own_config n ;; Ret (cf_regex c, n))
        (fun (x : text * text) s => isalnum (snd x) = true /\ exists_acct s (snd x)) TT) by exact HT.
      eapply triple_bind_inv; [apply (inv_own_config_any _ Sc)|auto|intros; exact I|]. intros c _.
      apply triple_ret. auto.
    + intros x. eapply triple_bind with (Mid := fun l s => ok l s /\ isalnum (snd x) = true /\ exists_acct s (snd x)).
      * intros s Hw [Hx He]. destruct (IH s Hw I) as [[ls [H1 [H2 [H3 H4]]]] Hst]. split; [|exact Hst].
        exists ls. split; [exact H1|]. split; [exact H2|]. split; [exact H3|].
        destruct (snd (arun _ s)); [|exact I]. split; [exact H4|]. split; [exact Hx|].
        eapply exists_acct_own; [|exact He]. eapply path_frame; eauto.
        intros l0 Hl0. rewrite Forall_forall in H2. apply HQ. auto.
      * intros l. apply triple_ret. intros s _ [H1 [H2 H3]] a [<-|Ha]; auto.
  - intros l.
    eapply triple_bind with (Mid := fun r s => match r with Some a => isalnum a = true /\ exists_acct s a | None => True end).
    + intros s Hw Hok. split; [|apply quiet_stops; intros; apply stop_lift]. unfold ends_well. destruct (match_addrs l (get_target_emailadr m)) as [[a|]|] eqn:Em; simpl; exists [];
        (split; [constructor|split; [constructor|split; [exact Hw|]]]); try exact I.
      apply Hok. eapply match_addrs_In; eauto.
    + intros [a|]; [apply triple_ret; auto|].
      eapply triple_bind_inv; [apply (inv_lift _ Sc) with (Q := fun _ => True); auto|auto|intros; exact I|]. intros d _.
      eapply triple_bind with (Mid := fun r s => match r with Some a => isalnum a = true /\ exists_acct s a | None => True end).
      * eapply triple_conseq; [| | | |apply (triple_from_emailadr Sc d true HSc)]; auto.
      * intros [a|]; [apply triple_ret; auto|apply triple_raise; intros; exact I].
Qed.

(** sequencing: an existing account is processed under [ctx] *)
Lemma bind_acct {B} (Sc : label -> Prop) (p : prog cop (option text)) (f : option text -> prog cop B) :
  triple TT Sc p (fun r s => match r with Some a => isalnum a = true /\ exists_acct s a | None => True end) TT ->
  (forall a c k, isalnum a = true -> inv (ctx a c k) Sc (f (Some a)) (fun _ => True)) ->
  inv TT Sc (f None) (fun _ => True) ->
  inv TT Sc (bind p f) (fun _ => True).
Proof.
  intros H1 H2 H3. apply triple_TT. eapply triple_bind; [exact H1|]. intros [a|].
  - intros s Hw [Ha He]. apply (inv_TT_ctx Sc a (f (Some a)) Ha (fun c k => H2 a c k Ha) s Hw He).
  - eapply triple_conseq; [| | | |exact H3]; auto.
Qed.
Lemma bind_acct' {B} (Sc : label -> Prop) (p : prog cop text) (f : text -> prog cop B) :
  triple TT Sc p (fun a s => isalnum a = true /\ exists_acct s a) TT ->
  (forall a c k, isalnum a = true -> inv (ctx a c k) Sc (f a) (fun _ => True)) ->
  inv TT Sc (bind p f) (fun _ => True).
Proof.
  intros H1 H2. apply triple_TT. eapply triple_bind; [exact H1|]. intros a s Hw [Ha He].
  apply (inv_TT_ctx Sc a (f a) Ha (fun c k => H2 a c k Ha) s Hw He).
Qed.

Lemma get_account_triple' (Sc : label -> Prop) n : Sc LVersion ->
  triple TT Sc (get_account n true) (fun a s => isalnum a = true /\ exists_acct s a) TT.
Proof.
  intros H. eapply triple_conseq; [| | | |apply (triple_get_account TT Sc n (stable_TT Sc) H)]; auto.
  intros a s _ [_ [-> H1]]. exact H1.
Qed.

Definition inc_any (m : msg) (nd : bool) (l : label) : Prop := sc_any l \/ exists a, inc_scope a m nd l.
Lemma inc_any_not_own m nd a l : inc_any m nd l -> not_own a l.
Proof. intros [H|[b H]]; [eapply sc_any_not_own | eapply inc_scope_not_own]; eauto. Qed.

(** ** scandir *)
Definition sc_scan (files : list (Z * msg)) (l : label) : Prop :=
  sc_any l \/ exists a mtime m, In (mtime, m) files /\ inc_scope a m false l.

Lemma inv_scan_one files reparse now file : In file files ->
  inv TT (sc_scan files) (scan_one reparse now file) (fun _ => True).
Proof.
  intros Hin. unfold scan_one. destruct file as [mtime m].
  assert (HV : sc_scan files LVersion) by (left; exact I).
  assert (HQ : forall a l, sc_scan files l -> not_own a l).
  { intros a l [H|[b [t [m' [_ H]]]]]; [eapply sc_any_not_own | eapply inc_scope_not_own]; eauto. }
  destruct (is_too_old now mtime); [apply inv_ret; exact I|].
  destruct (hget m _); [|apply inv_ret; exact I].
  eapply inv_bind; [apply inv_lift with (Q := fun _ => True); auto|]. intros d _.
  eapply inv_bind with (Q1 := fun _ => True).
  { unfold effective_date. eapply inv_bind with (Q1 := fun _ => True); [|intros; apply inv_ret; exact I].
    apply inv_tick; [apply stable_TT|left; exact I]. }
  intros date _. destruct (is_too_old now date); [apply inv_ret; exact I|].
  apply bind_acct.
  - apply triple_catch.
    + eapply triple_bind; [apply triple_get_matching; auto|]. intros a. apply triple_ret. auto.
    + intros e q. destruct e; try discriminate; intros [= <-]; apply triple_ret; auto.
  - intros a c k Ha.
    eapply inv_bind with (Q1 := fun _ => True).
    + apply inv_catch.
      * eapply inv_bind; [|intros; apply inv_ret; exact I].
        eapply inv_sub; [|apply inv_process_incoming; exact Ha]. intros l0 Hl0. right. eauto 10.
      * intros e q. destruct e; try discriminate; intros [= <-]; apply inv_ret; exact I.
    + intros [[i|]|] _; try (apply inv_ret; exact I).
      destruct (has_error _); [apply inv_ret; exact I|].
      eapply inv_bind; [apply inv_read with (Q := fun _ => True); auto|]. intros; apply inv_ret; exact I.
  - apply inv_ret; exact I.
Qed.

(** ** bot *)
Lemma inv_bot fb body m : inv TT (inc_any m false) (bot_reply fb body m) (fun _ => True).
Proof.
  unfold bot_reply.
  assert (HV : inc_any m false LVersion) by (left; exact I).
  eapply inv_bind; [apply inv_lift with (Q := fun _ => True); auto|]. intros delivto _.
  apply bind_acct; [apply triple_from_emailadr; exact HV| |apply inv_raise].
  intros a c k Ha.
  assert (HQ : forall l, inc_any m false l -> not_own a l) by (intros; eapply inc_any_not_own; eauto).
  assert (HSg : forall l, sc_gpg a l -> inc_any m false l) by (intros l H; left; eapply sc_any_gpg; eauto).
  assert (HSt := ctx_stable a c k _ HQ).
  eapply inv_bind.
  { eapply inv_sub; [|apply inv_process_incoming; exact Ha]. intros l0 Hl0. right. eauto. }
  intros [i|] _; [|apply inv_raise].
  eapply inv_bind with (Q1 := fun _ => True).
  { destruct (text_eqb _ _); [|apply inv_ret; exact I].
    eapply inv_bind; [apply inv_decrypt_mime; auto|]. intros; apply inv_ret; exact I. }
  intros enc _. eapply inv_bind; [apply inv_own_keyhandle; auto|]. intros kh _.
  eapply inv_bind; [apply inv_recommend; auto|]. intros rec _.
  destruct (hget m (L "To")) as [to|]; [|apply inv_raise].
  destruct (negb _); [apply inv_ret; exact I|].
  eapply inv_bind; [apply inv_lift with (Q := fun _ => True); auto|]. intros cc _.
  eapply inv_bind; [apply inv_make_ac_header; auto|]. intros ac _.
  destruct (hget m (L "From")) as [from|]; [|apply inv_raise].
  eapply inv_bind with (Q1 := fun _ => True).
  { apply inv_uuid; [exact HSt|left; exact I]. }
  intros id _. eapply inv_bind with (Q1 := fun _ => True).
  { apply inv_tick; [exact HSt|left; exact I]. }
  intros now _. destruct (otext_eqb rec _); [|apply inv_ret; exact I].
  eapply inv_bind; [apply inv_encrypt_mime; auto|]. intros [em khs] _.
  eapply inv_bind; [apply inv_lift with (Q := fun _ => True); auto|]. intros b _.
  eapply inv_bind; [apply inv_assert|]. intros; apply inv_ret; exact I.
Qed.

(** ** Main theorem *)
Lemma sc_a_not_own n l : sc_a n l -> not_own n l.
Proof. unfold not_own. intros [->|H]; [apply own_mgr|]. destruct l; simpl in *; tauto. Qed.

Lemma inv_wa {A} (Sc : label -> Prop) n (f : text -> prog cop A) :
  Sc LVersion -> (forall c k, isalnum n = true -> inv (ctx n c k) Sc (f n) (fun _ => True)) ->
  inv TT Sc (with_account n f) (fun _ => True).
Proof. apply inv_with_account. Qed.

Lemma inv_or_version (I : ast -> Prop) (Sc : label -> Prop) {A} (p : prog cop A) Q :
  inv I Sc p Q -> inv I (fun l => l = LVersion \/ Sc l) p Q.
Proof. apply inv_sub. auto. Qed.

Lemma inv_peers (I : ast -> Prop) (Sc : label -> Prop) a : inv I Sc (get_peername_list a) (fun _ => True).
Proof. unfold get_peername_list. eapply inv_bind; [apply inv_heads with (Q := fun _ => True); auto|]. intros; apply inv_ret; exact Logic.I. Qed.

Lemma inv_own_keyhandle_any (I : ast -> Prop) (Sc : label -> Prop) a : inv I Sc (own_keyhandle a) (fun _ => True).
Proof.
  unfold own_keyhandle. eapply inv_bind; [apply inv_read with (Q := fun _ => True); auto|]. intros l _.
  destruct (latest_keygen l); [apply inv_ret; exact Logic.I | apply inv_raise].
Qed.

Lemma inv_verif c k n (Sc : label -> Prop) addr pk o : isalnum n = true -> (forall l, Sc l -> not_own n l) ->
  Sc (LVerif n (VerifEntry addr pk o)) ->
  inv (ctx n c k) Sc (perform (CAppend (oob_chain n) (EVerif (VerifEntry addr pk o)))) (fun _ => True).
Proof.
  intros Hn HQ HSc. apply inv_label with (l := LVerif n (VerifEntry addr pk o)); auto.
  - apply ctx_stable; auto.
  - intros s _ [Hc _]. split; [exact Hn|congruence].
  - intros s. apply atomic_perform.
Qed.

Lemma inv_recommend_any (I : ast -> Prop) (Sc : label -> Prop) a adrs r from : inv I Sc (recommend a adrs r from) (fun _ => True).
Proof.
  unfold recommend. eapply inv_bind; [apply inv_own_config_any|]. intros c' _. unfold ui_recommendation.
  eapply inv_bind; [apply inv_mapM with (Q := fun _ => True); intros n _|].
  - eapply inv_bind; [apply inv_read with (Q := fun _ => True); auto|]. intros; apply inv_lift; auto.
  - intros; apply inv_lift; auto.
Qed.

Lemma atomic_remove a s : atomic (remove_account a) s.
Proof. apply atomic_perform. Qed.
Theorem exec_scope c : inv TT (api_scope c) (exec c) (fun _ => True).
Proof.
  destruct c; cbn [exec api_scope].
  - (* AAdd *) eapply inv_finish with (Q := fun _ => True). apply triple_TT.
    eapply triple_conseq; [| | | |apply triple_add_account]; auto.
  - (* AMod *) apply triple_TT. eapply triple_bind; [apply triple_mod_account|]. intros [ch a]. apply triple_ret. auto.
  - (* ADel *) unfold del_account. eapply inv_bind; [|intros; apply inv_ret; exact I].
    apply triple_TT. eapply triple_bind; [apply triple_get_account; [apply stable_TT|left; reflexivity]|].
    intros a s Hw [_ [-> [Hn He]]].
      match goal with |- ends_well ?sc ?p ?q ?x s /\ _ => enough (Hend : ends_well sc p q x s) by (split; [exact Hend|eapply atomic_stops; [apply atomic_remove|exact Hend]]) end.
      exists [LRemove name]. split; [|split; [|split]].
    + constructor; [exact Hn|constructor].
    + constructor; [right; reflexivity|constructor].
    + apply (step_WF s Hw (LRemove name) Hn).
    + exact I.
  - (* AFind *) eapply inv_finish. apply inv_from_emailadr. reflexivity.
  - (* AList *) eapply inv_finish. apply inv_list_names.
  - (* ARoute *) eapply inv_finish. apply inv_get_matching. reflexivity.
  - (* ARemove *) unfold remove_all. eapply inv_bind; [|intros; apply inv_ret; exact I].
    apply inv_rm. reflexivity.
  - (* AIncoming *) apply inv_wa; [left; reflexivity|]. intros c k Hn. eapply inv_finish.
    apply inv_or_version, inv_process_incoming. exact Hn.
  - apply inv_wa; [left; reflexivity|]. intros c k Hn. eapply inv_finish.
    apply inv_process_outgoing; [exact Hn|apply sc_a_not_own|right; assumption].
  - apply inv_wa; [left; reflexivity|]. intros c k Hn. eapply inv_bind; [|intros []; intros; apply inv_ret; exact I].
    apply inv_encrypt_mime; [exact Hn|apply sc_a_not_own|right; assumption].
  - apply inv_wa; [left; reflexivity|]. intros c k Hn. eapply inv_bind; [|intros []; intros; apply inv_ret; exact I].
    apply inv_decrypt_mime; [exact Hn|apply sc_a_not_own|right; assumption].
  - apply inv_wa; [reflexivity|]. intros c k Hn. eapply inv_finish. apply inv_recommend_any.
  - apply inv_wa; [left; reflexivity|]. intros c k Hn. eapply inv_finish.
    apply inv_make_ac_header; [exact Hn|apply sc_a_not_own|right; assumption].
  - apply inv_wa; [left; reflexivity|]. intros c k Hn. eapply inv_finish.
    apply inv_export_public_key; [exact Hn|apply sc_a_not_own|right; assumption].
  - apply inv_wa; [left; reflexivity|]. intros c k Hn. eapply inv_finish.
    apply inv_export_secret_key; [exact Hn|apply sc_a_not_own|right; assumption].
  - (* AImport *) apply inv_wa; [left; reflexivity|]. intros c k Hn. eapply inv_finish.
    apply inv_or_version, inv_import_autocrypt. exact Hn.
  - (* APeer *) apply inv_wa; [reflexivity|]. intros c k Hn. cbv zeta. eapply inv_finish.
    apply inv_read with (Q := fun _ => True); auto.
  - apply inv_wa; [reflexivity|]. intros c k Hn. eapply inv_finish. apply inv_peers.
  - apply inv_wa; [reflexivity|]. intros c k Hn. eapply inv_bind; [apply inv_own_config_any|]. intros c' _.
    eapply inv_finish. apply inv_own_keyhandle_any.
  - (* AVerifySelf *) apply inv_wa; [left; reflexivity|]. intros c k Hn. eapply inv_bind; [|intros; apply inv_ret; exact I].
    apply inv_verif; [exact Hn| |right; reflexivity].
    intros l [->| ->]; unfold not_own; simpl; [apply own_mgr|apply own_oob].
  - apply inv_wa; [left; reflexivity|]. intros c k Hn. eapply inv_bind; [|intros; apply inv_ret; exact I].
    apply inv_verif; [exact Hn| |right; reflexivity].
    intros l [->| ->]; unfold not_own; simpl; [apply own_mgr|apply own_oob].
  - apply inv_wa; [reflexivity|]. intros c k Hn. eapply inv_finish with (Q := fun _ => True). unfold get_verification.
    eapply inv_finish. apply inv_read with (Q := fun _ => True); auto.
  - (* ACliAdd *) unfold cli_add_account. eapply inv_finish with (Q := fun _ => True). apply triple_TT.
    eapply triple_bind; [apply triple_add_account|]. intros a s Hw [-> [Hn [Hc He]]].
    eapply (inv_TT_ctx (sc_add name _) name); [exact Hn| |exact Hw|exact He].
    intros c k. eapply inv_sub with (Sc := sc_gpg name).
    + intros []; simpl; tauto.
    + apply inv_status_account; auto. intros []; simpl; unfold not_own; simpl; tauto.
  - (* ACliMod *) unfold cli_mod_account.
    eapply inv_bind with (Q1 := fun _ => True); [|intros []; intros; apply inv_ret; exact I]. apply triple_TT.
    eapply triple_bind.
    + eapply triple_conseq; [| | | |apply triple_mod_account]; auto; try (intros l H; left; exact H). intros a s _ H. exact H.
    + intros [ch a] s Hw [Ha [Hn He]]. simpl in Ha. subst a.
      eapply triple_bind_inv with (I := fun s => exists_acct s name) (Sc1 := sc_gpg name) (Q1 := fun _ => True) (Ex := TT)
        (Post := fun _ _ => True); [|right; assumption|intros; exact I| |exact Hw|exact He].
      2:{ intros; apply triple_ret; auto. }
      intros s1 Hw1 [c [kg [Hc Hk]]].
      destruct (inv_status_account (sc_gpg name) name c 0 false Hn) with (s := s1) as [[ls [H1 [H2 [H3 H4]]]] Hst]; auto.
      * intros []; simpl; unfold not_own; simpl; tauto.
      * split; [exact Hc|lia].
      * split; [|exact Hst]. exists ls. split; [exact H1|]. split; [exact H2|]. split; [exact H3|].
        assert (Hx : exists_acct (fst (arun (cli_status_account name false) s1)) name).
        { eapply exists_acct_own; [|exists c, kg; eauto]. eapply path_frame; eauto.
          intros l Hl. rewrite Forall_forall in H2. specialize (H2 l Hl). destruct l; simpl in *; tauto. }
        destruct (snd (arun _ s1)); auto.
  - (* ACliDel *) unfold cli_del_account, del_account. eapply inv_finish with (Q := fun _ => True).
    eapply inv_bind with (Q1 := fun _ => True).
    + apply triple_TT. eapply triple_bind; [apply triple_get_account; [apply stable_TT|right; exact I]|].
      intros a s Hw [_ [-> [Hn He]]].
      match goal with |- ends_well ?sc ?p ?q ?x s /\ _ => enough (Hend : ends_well sc p q x s) by (split; [exact Hend|eapply atomic_stops; [apply atomic_remove|exact Hend]]) end.
      exists [LRemove name]. split; [|split; [|split]].
      * constructor; [exact Hn|constructor].
      * constructor; [left; reflexivity|constructor].
      * apply (step_WF s Hw (LRemove name) Hn).
      * exact I.
    + intros _ _. eapply inv_sub; [|apply inv_cli_status]. intros l H; right; exact H.
  - (* ACliDestroy *) unfold cli_destroy_all. eapply inv_finish with (Q := fun _ => True).
    destruct yes; [|apply inv_ret; exact I].
    eapply inv_bind with (Q1 := fun _ => True).
    + unfold mgr_version. eapply inv_finish. apply inv_read with (Q := fun _ => True); auto.
    + intros [v|] _; [|apply inv_ret; exact I]. eapply inv_bind; [|intros; apply inv_ret; exact I].
      apply inv_rm. split; reflexivity.
  - eapply inv_finish. apply inv_cli_status.
  - (* ACliIncoming *) eapply inv_finish with (Q := fun _ => True). unfold cli_process_incoming.
    set (Sc := fun l => l = LVersion \/ exists a, (forall n, name = Some n -> a = n) /\ inc_scope a m no_decrypt l).
    assert (HQ : forall a l, Sc l -> not_own a l).
    { intros a l [->|[b [_ H]]]; [apply own_mgr|eapply inc_scope_not_own; eauto]. }
    enough (HT : inv TT Sc (a <- match name with None => get_matching_account m | Some n => get_account n true end ;;
       r <- process_incoming a m (negb reparse) no_decrypt ;;
       match r with None => Ret None | Some i => l <- perform (CRead (in_chain i)) ;;
         Ret (Some (in_acct i, Z.eqb (autocrypt_timestamp l) (last_seen l))) end) (fun _ => True)) by exact HT.
    apply triple_TT.
    eapply triple_bind with (Mid := fun a s => isalnum a = true /\ exists_acct s a /\ forall n, name = Some n -> a = n).
    + destruct name as [n|].
      * eapply triple_conseq; [| | | |apply (triple_get_account TT Sc n (stable_TT Sc))]; auto; [|left; reflexivity].
        intros a s _ [_ [-> [H1 H2]]]. split; [exact H1|]. split; [exact H2|]. congruence.
      * eapply triple_conseq; [| | | |apply (triple_get_matching Sc m)]; auto; [|left; reflexivity].
        intros a s _ [H1 H2]. split; [exact H1|]. split; [exact H2|]. discriminate.
    + intros a s Hw [Ha [He Hn]].
      eapply (inv_TT_ctx Sc a); [exact Ha| |exact Hw|exact He]. intros c k.
      eapply inv_bind.
      * eapply inv_sub; [|apply inv_process_incoming; exact Ha]. intros l Hl. right. exists a. auto.
      * intros [i|] _; [|apply inv_ret; exact I].
        eapply inv_finish. apply inv_read with (Q := fun _ => True); auto.
  - (* ACliScandir *) eapply inv_finish with (Q := fun _ => True). unfold cli_scandir.
    eapply inv_bind with (Q1 := fun _ => True).
    + apply inv_tick; [apply stable_TT|left; exact I].
    + intros now _. eapply inv_true, inv_mapM. intros f Hf. apply inv_scan_one. exact Hf.
  - (* ACliOutgoing *) eapply inv_finish with (Q := fun _ => True). unfold cli_process_outgoing. cbv zeta.
    destruct (nonempty _).
    + eapply inv_bind; [apply inv_from_emailadr; exact I|]. intros [a|] _; [apply inv_ret; exact I|apply inv_raise].
    + apply bind_acct; [apply triple_from_emailadr; exact I| |apply inv_raise].
      intros a c k Ha. eapply inv_finish.
      apply inv_process_outgoing; [exact Ha|apply sc_any_not_own|apply sc_any_gpg].
  - (* ACliPeerstate *) eapply inv_finish with (Q := fun _ => True). unfold cli_peerstate.
    apply inv_with_account'; [reflexivity|]. intros c k Hn. cbv zeta. eapply inv_finish.
    apply inv_read with (Q := fun _ => True); auto.
  - eapply inv_finish. apply inv_bot.
Qed.

(** Every API call is a path of guarded steps within its scope. *)
Corollary exec_path c s : WF s ->
  exists ls, path s ls (fst (arun (exec c) s)) /\ Forall (api_scope c) ls.
Proof.
  intros Hw. destruct (exec_scope c s Hw I) as [[ls [H1 [H2 _]]] _]. eauto.
Qed.
(** And so is every call that is killed. *)
Corollary killed_path c n s : WF s ->
  exists ls, path s ls (killed s c n) /\ Forall (api_scope c) ls.
Proof. intros Hw. destruct (exec_scope c s Hw I) as [_ H]. destruct (H n) as [ls [_ [H1 [H2 _]]]]. eauto. Qed.
(** What is missing then are further steps of the same kind. *)
Corollary killed_rest c n s : WF s ->
  exists ls, path (killed s c n) ls (fst (arun (exec c) s)) /\ Forall (api_scope c) ls.
Proof. intros Hw. destruct (exec_scope c s Hw I) as [_ H]. destruct (H n) as [_ [ls [_ [_ H1]]]]. eauto. Qed.

Lemma reachable_WF s : reachable s -> WF s.
Proof.
  apply reachable_ind; [apply WF_init|]. intros s0 c n _ Hw.
  destruct (killed_path c n s0 Hw) as [ls [H1 _]]. eapply path_WF; eauto.
Qed.

End ApiScope.
