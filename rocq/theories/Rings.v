(** Which key rings calls work on (C44). *)
From Verif Require Import Base PyStr Env Prog Chain Gpg Mime States Recommendation Account Cmdline Bot Fs Api Steps StepFacts Exec ApiScope
  Spec PeerSpec OutSpec AcctSpec Obs PeerFacts Quiet OutProofs AcctFacts AcctProofs AcctProofs2.

Section Rings.
Context {E : Env}.

Lemma rest_home g rest inp tmp f d k : gpg_cmd g rest inp tmp -> rest = f :: d :: k -> text_eqb f (L "--homedir") = false.
Proof.
  intros H. destruct H; unfold encrypt_argv, nopassphrase; try (destruct armor); cbn [app]; intros [= <- _ _]; reflexivity.
Qed.
Lemma full_home g rest inp tmp : gpg_cmd g rest inp tmp ->
  argv_home (full_argv g rest) = match gp_home g with Some h => h | None => [] end.
Proof.
  intros H. pose proof (rest_home g rest inp tmp) as Hr. unfold full_argv, homedirflags.
  destruct (gp_home g) as [[|x h]|]; cbn [nonempty app argv_home].
  1,3: destruct rest as [|f [|d k]]; [reflexivity..|]; rewrite (Hr f d k H eq_refl); reflexivity.
  rewrite text_eqb_refl. reflexivity.
Qed.

Lemma decided_world s n d : a_trace (fst (decided s n d)) = a_trace s /\ a_rings (fst (decided s n d)) = a_rings s.
Proof. destruct d as [[e|]|e]; auto. Qed.
Lemma step_world s l : l <> LRm -> (forall a argv i t, l <> LGpg a argv i t) ->
  a_trace (step l s) = a_trace s /\ a_rings (step l s) = a_rings s.
Proof.
  intros H1 H2. unfold step. destruct l; cbn [step_prog]; try (split; reflexivity); try congruence.
  - rewrite update_from_msg_run. apply decided_world.
  - rewrite update_from_msg_gossip_run. apply decided_world.
  - rewrite set_version_run. destruct (version_of s); split; reflexivity.
Qed.
Lemma step_config s l a cfg : l <> LRm -> config_of (step l s) a = Some cfg -> config_of s a = Some cfg \/ l = LCfg a cfg.
Proof.
  intros Hl Hc.
  assert (Hf : ~ writes l (own_chain a) -> config_of s a = Some cfg \/ l = LCfg a cfg).
  { intros H. left. unfold config_of in *. rewrite step_frame in Hc by exact H. exact Hc. }
  destruct l; try (apply Hf; simpl; intros H; first [exact H | eapply own_peer; eauto; fail | eapply own_oob; eauto; fail | eapply own_mgr; eauto; fail]).
  - destruct (text_eqb_spec acct a) as [->|Hne]; [|apply Hf; simpl; intros H; apply own_chain_inj in H; congruence].
    change (step (LCfg a c) s) with (app_log s (own_chain a) (ECfg c)) in Hc. rewrite config_app_cfg in Hc. right. congruence.
  - destruct (text_eqb_spec acct a) as [->|Hne]; [|apply Hf; simpl; intros H; apply own_chain_inj in H; congruence].
    change (step (LKeygen a kd kh) s) with (app_log s (own_chain a) (EKeygen (KeygenEntry kd kh))) in Hc. rewrite config_app_keygen in Hc. auto.
  - destruct (match_account acct (own_chain a)) eqn:Em.
    + exfalso. unfold config_of, alog, step in Hc. cbn [step_prog] in Hc. unfold remove_account, arun in Hc. cbn [bind perform run astep fst a_logs] in Hc.
      rewrite dget_dremove_if, Em in Hc. discriminate.
    + apply Hf. simpl. congruence.
  - congruence.
Qed.

Lemma confined_refl H s : confined H s s.
Proof. split; [exists []; auto|auto]. Qed.
Lemma confined_trans H s1 s2 s3 : confined H s1 s2 -> confined H s2 s3 -> confined H s1 s3.
Proof.
  intros [[l1 [H1 H2]] H3] [[l2 [H4 H5]] H6]. split; [exists (l2 ++ l1); rewrite H4, H1, app_assoc; split; [reflexivity|apply Forall_app; auto]|].
  intros h Hh. rewrite H6, H3 by exact Hh. reflexivity.
Qed.
Lemma confined_same H s s' : a_trace s' = a_trace s -> a_rings s' = a_rings s -> confined H s s'.
Proof. intros H1 H2. split; [exists []; auto|]. intros h _. unfold ring_content. rewrite H2. reflexivity. Qed.
Lemma confined_ran H s s' g : confined H s s' -> ran s s' g -> H (gc_home g).
Proof.
  intros [[l [H1 H2]] _] [l' [H3 Hi]]. rewrite H1 in H3. apply app_inv_tail in H3. subst l'. rewrite Forall_forall in H2. auto.
Qed.
Lemma confined_weaken (H K : text -> Prop) s s' : (forall h, H h -> K h) -> confined H s s' -> confined K s s'.
Proof.
  intros HK [[l [H1 H2]] H3]. split; [exists l; split; [exact H1|]; eapply Forall_impl; [|exact H2]; auto|]. intros h Hh. apply H3. auto.
Qed.
Lemma step_confined H s l : l <> LRm -> (forall a argv i t, l <> LGpg a argv i t) -> confined H s (step l s).
Proof. intros H1 H2. destruct (step_world s l H1 H2). apply confined_same; assumption. Qed.

Definition rings_of (A : text -> Prop) (P : text -> text -> Prop) (h : text) : Prop :=
  exists a mode, isalnum a = true /\ A a /\ P a mode /\ h = ring_of_mode a mode.
Lemma path_rings (A : text -> Prop) (P : text -> text -> Prop) (K : ast -> Prop) s ls s' :
  path s ls s' -> WF s ->
  (forall a argv i t, In (LGpg a argv i t) ls -> A a) -> ~ In LRm ls ->
  (forall s l, WF s -> guard s l -> In l ls -> K s -> K (step l s)) ->
  (forall si a c', K si -> A a -> In (LCfg a c') ls -> guard si (LCfg a c') ->
     (forall cfg, config_of si a = Some cfg -> P a (cf_mode cfg)) -> P a (cf_mode c')) ->
  K s -> (forall a cfg, A a -> config_of s a = Some cfg -> P a (cf_mode cfg)) ->
  confined (rings_of A P) s s' /\ (forall a cfg, A a -> config_of s' a = Some cfg -> P a (cf_mode cfg)).
Proof.
  induction 1 as [s|s l ls s' Hg Hp IH]; intros Hw HA Hrm HK HC Hk HP; [split; [apply confined_refl|exact HP]|].
  assert (Hl : l <> LRm) by (intros ->; apply Hrm; left; reflexivity).
  assert (HP' : forall a cfg, A a -> config_of (step l s) a = Some cfg -> P a (cf_mode cfg)).
  { intros a cfg Ha Hc. destruct (step_config s l a cfg Hl Hc) as [H1| ->]; [eauto|].
    eapply HC; eauto. left; reflexivity. }
  assert (Hs : confined (rings_of A P) s (step l s)).
  { destruct l; try (apply step_confined; [discriminate|intros; discriminate]); try congruence.
    destruct Hg as [Ha [g [c [rest [H1 [H2 [H3 H4]]]]]]].
    assert (Hh : argv_home argv = ring_of_mode acct (cf_mode c)).
    { rewrite H3, (full_home g rest inp tmp H4), (proj1 H2). unfold home_of, ring_of_mode. destruct (text_eqb _ _); reflexivity. }
    assert (HR : rings_of A P (argv_home argv)).
    { exists acct, (cf_mode c). split; [exact Ha|]. assert (A acct) by (eapply HA; left; reflexivity). auto. }
    unfold step. cbn [step_prog]. unfold arun. cbn [bind perform run astep]. destruct (gpg _ _ _ _) as [r' res]. cbn [fst]. split.
    - eexists [_]. split; [reflexivity|]. constructor; [exact HR|constructor].
    - intros h Hh'. unfold ring_content. cbn [a_rings]. rewrite ring_at_dset.
      destruct (text_eqb_spec (argv_home argv) h) as [Hx|]; [rewrite Hx in HR; contradiction|reflexivity]. }
  destruct IH as [H1 H2]; auto.
  - apply step_WF; auto.
  - intros; eapply HA; right; eauto.
  - intros H0; apply Hrm; right; exact H0.
  - intros; apply HK; auto; right; assumption.
  - intros; eapply HC; eauto; right; assumption.
  - apply HK; auto; left; reflexivity.
  - split; [eapply confined_trans; eauto|exact H2].
Qed.

(** calls of settings of unknown accounts *)
Lemma modifies_names n c : modifies n c = true -> names c = Some n /\ creates c = None /\ forall a, deletes a c = false.
Proof. destruct c; simpl; try discriminate; intros H; apply text_eqb_eq in H; subst; auto. Qed.
Lemma inited_confined H s : confined H s (inited s).
Proof. apply confined_same; unfold inited; rewrite arun_ensure_init; destruct (version_of s); reflexivity. Qed.
Lemma known_or_run s c : WF s -> (forall n, modifies n c = true -> exists_acct s n) \/ (after s c = inited s).
Proof.
  intros Hw. destruct (names c) as [n|] eqn:Hn.
  - destruct (creates c) as [p|] eqn:Hc.
    + left. intros n0 H. apply modifies_names in H. destruct H as [_ [H _]]. congruence.
    + destruct (exists_acct_dec s n) as [He|He].
      * left. intros n0 H. apply modifies_names in H. destruct H as [H _]. congruence.
      * right. unfold after. rewrite (unknown_run s c n He Hn Hc). reflexivity.
  - left. intros n0 H. apply modifies_names in H. destruct H as [H _]. congruence.
Qed.
(** the general form: [P] holds of all modes present and created *)
Lemma call_rings (A : text -> Prop) (P : text -> text -> Prop) s c : WF s -> deletes_all c = false ->
  (forall a argv i t, api_scope c (LGpg a argv i t) -> A a) ->
  (forall a mode, A a -> creates c = Some (a, mode) -> P a mode) ->
  (forall a cfg, A a -> config_of s a = Some cfg -> P a (cf_mode cfg)) ->
  confined (rings_of A P) s (after s c) /\ (forall a cfg, A a -> config_of (after s c) a = Some cfg -> P a (cf_mode cfg)).
Proof.
  intros Hw Hd HA HC HP. destruct (known_or_run s c Hw) as [Hk|Hk].
  - destruct (after_path s c Hw) as [ls [Hp HF]]. rewrite Forall_forall in HF.
    apply (path_rings A P (fun s => forall n, modifies n c = true -> exists_acct s n) s ls (after s c)); auto.
    + intros a argv i t Hi. eapply HA, HF, Hi.
    + intros H. apply HF, scope_rm in H. congruence.
    + intros si l Hwi Hgi Hi Hki n Hm. apply step_exists; auto. eapply scope_removes; [apply HF, Hi|]. apply modifies_names in Hm. apply Hm.
    + intros si a c' Hki Ha Hi Hgi Hcfg. destruct (scope_cfg c a c' (HF _ Hi)) as [Hm|[mode [Hm <-]]]; [|auto].
      destruct (Hki a Hm) as [c0 [k [H1 H2]]]. destruct Hgi as [_ [_ [_ [_ [H3|[c1 [H3 H4]]]]]]]; [congruence|].
      rewrite <- H4. auto.
  - rewrite Hk. split; [apply inited_confined|]. intros a cfg Ha. unfold config_of. rewrite inited_own. apply HP, Ha.
Qed.

Lemma c44_any s c : reachable s -> complete s -> deletes_all c = false ->
  confined (fun h => exists a mode, isalnum a = true /\ h = ring_of_mode a mode /\
     ((exists cfg kh, own_of s a = Some (cfg, kh) /\ cf_mode cfg = mode) \/ creates c = Some (a, mode))) s (after s c).
Proof.
  intros Hr Hc Hd. pose proof (WF_reachable s Hr) as Hw.
  destruct (call_rings (fun _ => True) (fun a mode => (exists cfg kh, own_of s a = Some (cfg, kh) /\ cf_mode cfg = mode) \/ creates c = Some (a, mode)) s c) as [H _]; auto.
  - intros a cfg _ Ha. left. assert (Hi : In a (accounts_of s)).
    { apply accounts_In; auto. intros H. unfold config_of in Ha. rewrite H in Ha. discriminate. }
    apply Hc in Hi. unfold has_account in Hi. destruct (own_of s a) as [[cfg' kh]|] eqn:Ho; [|congruence]. exists cfg', kh. split; [reflexivity|].
    apply own_of_some in Ho; auto. destruct Ho as [Ho _]. congruence.
  - eapply confined_weaken; [|exact H]. intros h [a [mode [H1 [_ [H2 H3]]]]]. exists a, mode. auto.
Qed.

(** ** One account *)
Lemma scope_gpg_names c n a argv i t : names c = Some n -> (forall m, c <> ACliDel m) -> api_scope c (LGpg a argv i t) -> a = n.
Proof.
  intros Hn Hd Hs. destruct (text_eqb_spec a n) as [->|H]; [reflexivity|]. destruct (scope_names c n _ a Hn Hd Hs H) as [_ H0]. exfalso. apply H0. reflexivity.
Qed.
Lemma own_mode_home n h : rings_of (fun a => a = n) (fun _ mode => mode = L "own") h -> h = own_gpghome n.
Proof. intros [a [mode [_ [-> [-> ->]]]]]. unfold ring_of_mode. rewrite text_eqb_refl. reflexivity. Qed.
Lemma existing_own s c n cfg kh : WF s -> names c = Some n -> (forall m, c <> ACliDel m) -> creates c = None ->
  own_of s n = Some (cfg, kh) -> cf_mode cfg = L "own" -> confined (fun h => h = own_gpghome n) s (after s c).
Proof.
  intros Hw Hn Hd Hc Ho Hm. apply own_of_some in Ho; auto. destruct Ho as [Ho _].
  destruct (call_rings (fun a => a = n) (fun _ mode => mode = L "own") s c) as [H _]; auto.
  - destruct c; simpl in *; try discriminate; reflexivity.
  - intros. eapply scope_gpg_names; eauto.
  - intros a mode _ H. congruence.
  - intros a cfg' -> H. congruence.
  - eapply confined_weaken; [|exact H]. apply own_mode_home.
Qed.

(** creation, after the settings were written *)
Definition create_rest (acct : text) (kh : option text) : prog cop unit :=
  kh' <- match kh with
         | None => id <- perform CUuid ;; g <- get_bingpg acct ;; gen_secret_key g (id ++ L "@random.muacrypt.org")
         | Some h => g <- get_bingpg acct ;; r <- get_secret_keyhandle g h ;; match r with Some h' => Ret h' | None => Raise ValueError end
         end ;;
  g <- get_bingpg acct ;;
  keydata <- get_secret_keydata g kh' false ;;
  append_keygen acct keydata kh'.
Lemma rest_triple n c kh : isalnum n = true ->
  triple (fresh_ctx n c) (fun l => sc_gu n l \/ exists kd kh, l = LKeygen n kd kh) (create_rest n kh)
    (fun _ s => config_of s n = Some c) (fun _ => True).
Proof.
  intros Hn. unfold create_rest.
  assert (Hsub : forall l, sc_gu n l -> (fun l => sc_gu n l \/ exists kd kh, l = LKeygen n kd kh) l) by auto.
  assert (HI : forall s, fresh_ctx n c s -> config_of s n = Some c) by (intros s [H _]; exact H).
  assert (HSt := fresh_stable n c).
  assert (HSg : forall l, sc_gpg n l -> sc_gu n l) by (intros []; simpl; tauto).
  eapply triple_bind_inv with (Sc1 := sc_gu n) (Q1 := fun _ => True); [|exact Hsub|auto|].
  { destruct kh as [h|].
    - eapply inv_bind; [apply inv_fresh_bingpg|]. intros g Hg.
      eapply inv_bind; [gl inv_get_secret_keyhandle|]. intros r _. destruct r; [apply inv_ret; exact I | apply inv_raise].
    - eapply inv_bind with (Q1 := fun id => exists k, id = uuid_hex k).
      { apply inv_label with (l := LUuid); auto; simpl; auto; [|intros; apply atomic_perform]. intros s Hw Hs. split; [reflexivity|]. intros x [= <-]. eauto. }
      intros id [k ->]. eapply inv_bind; [apply inv_fresh_bingpg|]. intros g Hg. gl inv_gen_secret_key. }
  intros kh' _.
  eapply triple_bind_inv with (Sc1 := sc_gu n); [apply inv_fresh_bingpg|exact Hsub|auto|]. intros g Hg.
  eapply triple_bind_inv with (Sc1 := sc_gu n); [gl inv_get_secret_keydata|exact Hsub|auto|]. intros kd _.
  intros s Hw [H1 H2].
  match goal with |- ends_well ?sc ?p ?q ?x s /\ _ => enough (Hend : ends_well sc p q x s) by (split; [exact Hend|eapply atomic_stops; [apply atomic_perform|exact Hend]]) end.
  unfold ends_well, append_keygen. rewrite arun_append. cbn [fst snd].
  exists [LKeygen n kd kh']. split; [|split; [|split]].
  - constructor; [|constructor]. simpl. rewrite H1. repeat split; auto; discriminate.
  - constructor; [|constructor]. right; eauto.
  - apply (step_WF s Hw (LKeygen n kd kh')). simpl. rewrite H1. repeat split; auto; discriminate.
  - rewrite config_app_keygen. exact H1.
Qed.
Lemma create_own s n regex kh bin : WF s -> version_of s <> None -> keygen_of s n = None -> isalnum n = true ->
  let r := arun (create n regex kh bin (L "own")) s in
  confined (fun h => h = own_gpghome n) s (fst r) /\ WF (fst r) /\
  (snd r = Ok tt -> config_of (fst r) n = Some (CfgEntry (L "nopreference") n regex (L "own") bin)).
Proof.
  intros Hw Hv Hk Ha. cbv zeta. set (c := CfgEntry (L "nopreference") n regex (L "own") bin).
  assert (He : arun (create n regex kh bin (L "own")) s = arun (create_rest n kh) (app_log s (own_chain n) (ECfg c))).
  { unfold create. rewrite arun_bind. change (arun (assert_ _) s) with (s, @Ok unit tt). cbv iota beta.
    rewrite arun_bind. change (arun (new_config n _) s) with (app_log s (own_chain n) (ECfg c), @Ok unit tt). reflexivity. }
  rewrite He. set (s1 := app_log s (own_chain n) (ECfg c)).
  assert (Hg : guard s (LCfg n c)) by (simpl; split; [exact Hv|split; [exact Ha|split; [reflexivity|split; [reflexivity|left; exact Hk]]]]).
  assert (Hw1 : WF s1) by (apply (step_WF s Hw (LCfg n c) Hg)).
  assert (Hf : fresh_ctx n c s1) by (split; [apply config_app_cfg|unfold s1; rewrite keygen_app_cfg; exact Hk]).
  destruct (rest_triple n c kh Ha s1 Hw1 Hf) as [[ls [Hp [HF [HW HP]]]] _]. rewrite Forall_forall in HF.
  destruct (path_rings (fun a => a = n) (fun _ mode => mode = L "own") (fun _ => True) s1 ls _ Hp) as [H _]; auto.
  - intros a argv i t Hi. apply HF in Hi. destruct Hi as [Hi|[kd [k Hi]]]; [exact Hi|discriminate].
  - intros Hi. apply HF in Hi. destruct Hi as [Hi|[kd [k Hi]]]; [exact Hi|discriminate].
  - intros si a c' _ _ Hi. apply HF in Hi. destruct Hi as [Hi|[kd [k Hi]]]; [destruct Hi|discriminate].
  - intros a cfg -> H. destruct Hf as [Hf _]. rewrite Hf in H. injection H as <-. reflexivity.
  - split; [|split; [exact HW|intros H1; rewrite H1 in HP; exact HP]]. eapply confined_trans; [apply confined_same; reflexivity|].
    eapply confined_weaken; [apply own_mode_home|exact H].
Qed.
Lemma status_own s n cfg v : WF s -> isalnum n = true -> config_of s n = Some cfg -> cf_mode cfg = L "own" ->
  confined (fun h => h = own_gpghome n) s (fst (arun (cli_status_account n v) s)).
Proof.
  intros Hw Ha Hc Hm.
  destruct (ctx_TT (sc_gpg n) n cfg 0 (cli_status_account n v) (fun _ => True) s) as [ls [Hp [HF _]]]; auto; [|lia|].
  { apply inv_status_account; auto. intros l Hl. unfold not_own. destruct l; simpl in *; tauto. }
  rewrite Forall_forall in HF.
  destruct (path_rings (fun a => a = n) (fun _ mode => mode = L "own") (fun _ => True) s ls _ Hp) as [H _]; auto.
  - intros a argv i t Hi. apply HF in Hi. exact Hi.
  - intros Hi. apply HF in Hi. exact Hi.
  - intros si a c' _ _ Hi. apply HF in Hi. destruct Hi.
  - intros a cfg' -> H. congruence.
  - eapply confined_weaken; [apply own_mode_home|exact H].
Qed.
Lemma creating_own s c n : WF s -> creates c = Some (n, L "own") -> confined (fun h => h = own_gpghome n) s (after s c).
Proof.
  intros Hw Hc. destruct (exists_acct_dec s n) as [He|He].
  { destruct (add_state s c n (L "own") Hc) as [regex [kh [bin [_ [_ [_ Herr]]]]]]. cbv zeta in Herr.
    rewrite add_existing_run in Herr by auto. destruct (Herr _ eq_refl) as [_ ->]. apply confined_refl. }
  destruct (isalnum n) eqn:Ha.
  - assert (Hcr : forall regex kh bin, let r := arun (add_account n regex kh bin (L "own")) s in
      confined (fun h => h = own_gpghome n) s (fst r) /\ WF (fst r) /\ (forall y, snd r = Ok y -> y = n /\ config_of (fst r) n = Some (new_cfg n regex bin (L "own")))).
    { intros regex kh bin. cbv zeta. rewrite add_run by auto. rewrite arun_bind.
      destruct (create_own (inited s) n (default_regex regex) kh bin (inited_WF s Hw) (inited_version s)) as [H1 [H2 H3]]; auto.
      { unfold keygen_of. rewrite inited_own. apply keygen_none; auto. }
      destruct (arun (create n (default_regex regex) kh bin (L "own")) (inited s)) as [s1 [[]|e]]; cbn [fst snd arun run] in *.
      - split; [eapply confined_trans; [apply inited_confined|exact H1]|]. split; [exact H2|]. intros y [= <-]. split; [reflexivity|]. apply H3. reflexivity.
      - split; [eapply confined_trans; [apply inited_confined|exact H1]|]. split; [exact H2|]. discriminate. }
    unfold after. destruct c; simpl in Hc; try discriminate; injection Hc as -> Hm; cbn [exec].
    + subst gpgmode. destruct (Hcr regex kh gpgbin) as [H1 _]. rewrite arun_bind.
      destruct (arun (add_account n regex kh gpgbin (L "own")) s) as [s1 [y|e]]; exact H1.
    + unfold cli_add_account. rewrite Hm. destruct (Hcr regex use_key gpgbin) as [H1 [H2 H3]]. rewrite !arun_bind.
      destruct (arun (add_account n regex use_key gpgbin (L "own")) s) as [s1 [y|e]]; cbn [fst snd] in *; [|exact H1].
      destruct (H3 y eq_refl) as [-> H4]. pose proof (status_own s1 n _ false H2 Ha H4 eq_refl) as H5.
      destruct (arun (cli_status_account n false) s1) as [s2 [st|e]]; cbn [fst] in *; (eapply confined_trans; [exact H1|exact H5]).
  - destruct (add_state s c n (L "own") Hc) as [regex [kh [bin [_ [_ [_ Herr]]]]]]. cbv zeta in Herr.
    unfold add_account in Herr. rewrite arun_bind, arun_get_account_nocheck, Ha in Herr. fold (inited s) in Herr.
    destruct (Herr _ eq_refl) as [_ ->]. apply inited_confined.
Qed.
Lemma c44_own s c n : reachable s -> names c = Some n -> (forall m, c <> ACliDel m) ->
  (exists cfg kh, own_of s n = Some (cfg, kh) /\ cf_mode cfg = L "own") \/ creates c = Some (n, L "own") ->
  confined (fun h => h = own_gpghome n) s (after s c).
Proof.
  intros Hr Hn Hd H. pose proof (WF_reachable s Hr) as Hw. destruct H as [[cfg [kh [Ho Hm]]]|H]; [|apply creating_own; auto].
  destruct (creates c) as [[n' mode]|] eqn:Hc; [|eapply existing_own; eauto].
  assert (n' = n) by (destruct c; simpl in *; try discriminate; congruence). subst n'.
  destruct (c39_add_again s c n mode Hr) as [_ ->]; [unfold has_account; congruence|exact Hc|]. apply confined_refl.
Qed.

(** ** Histories *)
Definition all_own (s : ast) : Prop := forall a cfg, config_of s a = Some cfg -> cf_mode cfg = L "own".
Lemma own_step_rings s c : WF s -> all_own s -> only_own c ->
  all_own (after s c) /\ (exists l, a_trace (after s c) = l ++ a_trace s /\ Forall (fun g => an_own_home (gc_home g)) l) /\
  ring_content (after s c) [] = ring_content s [].
Proof.
  intros Hw Ho Hc. destruct (deletes_all c) eqn:Hd.
  - assert (H : after s c = s \/ after s c = AState [] (dremove_if nonempty (a_rings s)) (a_tick s) (a_uuid s) (a_trace s)).
    { destruct c; simpl in Hd; try discriminate; [right; reflexivity|]. subst yes. unfold after. cbn [exec]. unfold cli_destroy_all.
      assert (H : arun mgr_version s = (s, Ok (option_map ac_version (version_of s)))) by reflexivity. rewrite !arun_bind, H.
      destruct (version_of s); [right; reflexivity|left; reflexivity]. }
    destruct H as [->| ->]; [split; [exact Ho|split; [exists []; auto|reflexivity]]|].
    split; [|split; [exists []; auto|]].
    + intros a cfg H. discriminate H.
    + unfold ring_content. cbn [a_rings]. rewrite ring_at_remove. reflexivity.
  - destruct (call_rings (fun _ => True) (fun _ mode => mode = L "own") s c Hw Hd) as [[H1 H2] H3]; auto.
    { intros a mode _ H. eapply Hc, H. }
    { intros a cfg _ H. eapply Ho, H. }
    assert (HR : forall h, rings_of (fun _ => True) (fun _ mode => mode = L "own") h -> an_own_home h).
    { intros h [a [mode [Ha [_ [-> ->]]]]]. exists a. split; [exact Ha|]. unfold ring_of_mode. rewrite text_eqb_refl. reflexivity. }
    split; [|split].
    + intros a cfg H. apply (H3 a cfg I H).
    + destruct H1 as [l [H1 H4]]. exists l. split; [exact H1|]. eapply Forall_impl; [|exact H4]. auto.
    + apply H2. intros H. apply HR in H. destruct H as [a [_ H]]. unfold own_gpghome in H. destruct basedir; discriminate.
Qed.
Lemma c44_history h : Forall only_own h ->
  Forall (fun g => an_own_home (gc_home g)) (a_trace (after_all ast0 h)) /\ ring_content (after_all ast0 h) [] = ring_content ast0 [].
Proof.
  intros HF.
  enough (H : forall s, WF s -> all_own s -> Forall (fun g => an_own_home (gc_home g)) (a_trace s) ->
    Forall (fun g => an_own_home (gc_home g)) (a_trace (after_all s h)) /\ ring_content (after_all s h) [] = ring_content s []).
  { apply H; [apply WF_init|intros a cfg H1; discriminate H1|constructor]. }
  induction HF as [|c h Hc HF IH]; intros s Hw Ho Ht; [split; [exact Ht|reflexivity]|]. rewrite after_all_cons.
  destruct (own_step_rings s c Hw Ho Hc) as [H1 [[l [H2 H3]] H4]]. rewrite <- H4. apply IH; [apply WF_after, Hw|exact H1|].
  rewrite H2. apply Forall_app. auto.
Qed.

End Rings.
