(** Which program is started (C70). *)
From Verif Require Import Base PyStr Env Prog Chain Gpg Mime States Recommendation Account Cmdline Bot Fs Api Steps StepFacts Exec ApiScope
  Spec PeerSpec OutSpec AcctSpec Obs PeerFacts Quiet OutProofs AcctFacts AcctProofs AcctProofs2 Rings GpgSpec GpgText.

Section Prog.
Context {E : Env}.

(** ** Looking up a program *)
Lemma path_join_file_in dir name : file_in dir name (path_join dir name).
Proof.
  unfold path_join, file_in. destruct dir as [|x d] using rev_ind; [left; auto|clear IHd].
  right. assert (Hn : nonempty (d ++ [x]) = true) by (destruct d; reflexivity). rewrite Hn, last_last. cbn [negb orb].
  destruct (N.eqb_spec x 47) as [->|Hx].
  - left. exists d. auto.
  - right. split; [destruct d; discriminate|]. split; [|reflexivity]. intros d' H. change (L "/") with [47%N] in H. apply app_inj_tail in H as [_ H]. contradiction.
Qed.
Lemma file_in_fun dir name p q : file_in dir name p -> file_in dir name q -> p = q.
Proof.
  assert (Hne : forall d, d ++ L "/" <> []) by (intros d; destruct d; discriminate).
  intros [[H1 ->]|[[d [H1 ->]]|[H1 [H2 ->]]]] [[H3 ->]|[[d' [H3 ->]]|[H3 [H4 ->]]]]; try reflexivity; subst; try contradiction;
    try (exfalso; eapply Hne; eauto; fail); try (exfalso; eapply H2; eauto; fail); try (exfalso; eapply H4; eauto; fail).
Qed.
Lemma find_split {A} (f : A -> bool) l x : find f l = Some x -> exists l1 l2, l = l1 ++ x :: l2 /\ f x = true /\ Forall (fun y => f y = false) l1.
Proof.
  induction l as [|y l IH]; cbn [find]; [discriminate|]. destruct (f y) eqn:Ef.
  - intros [= ->]. exists [], l. auto.
  - intros H. destruct (IH H) as [l1 [l2 [-> [H1 H2]]]]. exists (y :: l1), l2. auto.
Qed.
Lemma map_split {A B} (f : A -> B) l l1 y l2 : map f l = l1 ++ y :: l2 -> exists k1 x k2, l = k1 ++ x :: k2 /\ map f k1 = l1 /\ f x = y.
Proof.
  revert l. induction l1 as [|z l1 IH]; intros [|x l] H; try discriminate; cbn [map app] in H; injection H as H1 H2.
  - exists [], x, l. auto.
  - destruct (IH l H2) as [k1 [x' [k2 [-> [H3 H4]]]]]. exists (x :: k1), x', k2. cbn [map app]. rewrite H1, H3. auto.
Qed.
Lemma located_found name p : find_executable name = Some p <-> located name p.
Proof.
  unfold find_executable, isabs. split.
  - destruct (startswith (L "/") name) eqn:Es.
    + destruct (is_file name) eqn:Ef; [|discriminate]. intros [= <-]. apply loc_absolute; auto. apply startswith_inv in Es. exact Es.
    + intros H. apply find_split in H as [l1 [l2 [H1 [H2 H3]]]]. apply map_split in H1 as [k1 [d [k2 [H1 [H4 H5]]]]].
      apply loc_path with (dirs1 := k1) (dir := d) (dirs2 := k2).
      * intros r ->. rewrite startswith_app in Es. discriminate.
      * rewrite <- H1. symmetry. apply (join_split_on 58).
      * rewrite <- H1. apply split_on_parts.
      * intros d' q Hd Hq. rewrite (file_in_fun _ _ _ _ Hq (path_join_file_in d' name)). rewrite Forall_forall in H3. apply H3. rewrite <- H4.
        apply (in_map (fun dir => path_join dir name)). exact Hd.
      * rewrite <- H5. apply path_join_file_in.
      * exact H2.
  - intros [[r ->] Hf ->|d1 d d2 Hn He HF Hb Hi Hf].
    + rewrite startswith_app, Hf. reflexivity.
    + destruct (startswith (L "/") name) eqn:Es; [apply startswith_inv in Es as [r Hr]; exfalso; eapply Hn; eauto|].
      assert (Hs : split_on 58 env_path = d1 ++ d :: d2).
      { rewrite He. change (L ":") with [58%N]. clear - HF. induction d1 as [|x d1 IH]; cbn [app] in *.
        - revert d HF. induction d2 as [|y d2 IH2]; intros d HF.
          + cbn [join]. apply split_on_no. inversion HF; subst. intros x Hx ->. contradiction.
          + inversion HF; subst. change (join [58%N] (d :: y :: d2)) with (d ++ 58%N :: join [58%N] (y :: d2)).
            rewrite split_on_app; [|intros x Hx ->; contradiction]. f_equal. apply IH2. assumption.
        - inversion HF; subst. destruct (d1 ++ d :: d2) as [|z zs] eqn:Ez; [destruct d1; discriminate|].
          change (join [58%N] (x :: z :: zs)) with (x ++ 58%N :: join [58%N] (z :: zs)).
          rewrite split_on_app; [|intros y Hy ->; contradiction]. f_equal. apply IH. assumption. }
      rewrite Hs, map_app, (file_in_fun _ _ _ _ Hi (path_join_file_in d name)) in *.
      assert (Hx : forall l, (forall x, In x l -> is_file (path_join x name) = false) -> find is_file (map (fun dir => path_join dir name) l ++ map (fun dir => path_join dir name) (d :: d2)) = Some (path_join d name)).
      { induction l as [|x l IH]; cbn [map app find]; intros H; [rewrite Hf; reflexivity|]. rewrite (H x) by (left; reflexivity). apply IH. intros; apply H; right; assumption. }
      apply Hx. intros x Hx'. eapply Hb; [exact Hx'|apply path_join_file_in].
Qed.

(** ** Programs started along a path *)
Definition progs (P : text -> Prop) (s s' : ast) : Prop :=
  exists l, a_trace s' = l ++ a_trace s /\ Forall (fun g => exists p rest b, gc_argv g = p :: rest /\ P b /\ located b p) l.
Lemma progs_refl P s s' : a_trace s' = a_trace s -> progs P s s'.
Proof. intros H. exists []. rewrite H. auto. Qed.
Lemma progs_trans P s1 s2 s3 : progs P s1 s2 -> progs P s2 s3 -> progs P s1 s3.
Proof. intros [l1 [H1 H2]] [l2 [H3 H4]]. exists (l2 ++ l1). rewrite H3, H1, app_assoc. split; [reflexivity|]. apply Forall_app; auto. Qed.
Lemma progs_weaken (P Q : text -> Prop) s s' : (forall b, P b -> Q b) -> progs P s s' -> progs Q s s'.
Proof. intros H [l [H1 H2]]. exists l. split; [exact H1|]. eapply Forall_impl; [|exact H2]. intros g [p [rest [b [H3 [H4 H5]]]]]. exists p, rest, b. auto. Qed.
Lemma progs_ran P s s' g : progs P s s' -> ran s s' g -> exists p rest b, gc_argv g = p :: rest /\ P b /\ located b p.
Proof. intros [l [H1 H2]] [l' [H3 Hi]]. rewrite H1 in H3. apply app_inv_tail in H3. subst l'. rewrite Forall_forall in H2. apply H2, Hi. Qed.

Lemma step_trace_rm s : a_trace (step LRm s) = a_trace s. Proof. reflexivity. Qed.
Lemma path_progs (A : text -> Prop) (P : text -> text -> Prop) s ls s' : path s ls s' ->
  (forall a argv i t, In (LGpg a argv i t) ls -> A a) ->
  (forall a c', A a -> In (LCfg a c') ls -> P a (cf_bin c')) ->
  (forall a cfg, A a -> config_of s a = Some cfg -> P a (cf_bin cfg)) ->
  progs (fun b => exists a, A a /\ P a b) s s' /\ (forall a cfg, A a -> config_of s' a = Some cfg -> P a (cf_bin cfg)).
Proof.
  induction 1 as [s|s l ls s' Hg Hp IH]; intros HA HC HP; [split; [apply progs_refl; reflexivity|exact HP]|].
  assert (HP' : forall a cfg, A a -> config_of (step l s) a = Some cfg -> P a (cf_bin cfg)).
  { intros a cfg Ha Hc. assert (Hl : l = LRm \/ l <> LRm) by (destruct l; (left; reflexivity) || (right; discriminate)).
    destruct Hl as [->|Hl]; [discriminate Hc|].
    destruct (step_config s l a cfg Hl Hc) as [H1| ->]; [eauto|]. eapply HC; eauto. left; reflexivity. }
  assert (Hs : progs (fun b => exists a, A a /\ P a b) s (step l s)).
  { destruct l; try (apply progs_refl; apply step_world; [discriminate|intros; discriminate]); [|apply progs_refl; reflexivity].
    destruct Hg as [Ha [g [c [rest [H1 [H2 [H3 H4]]]]]]].
    unfold step. cbn [step_prog]. unfold arun. cbn [bind perform run astep]. destruct (gpg _ _ _ _) as [r' res]. cbn [fst].
    eexists [_]. split; [reflexivity|]. constructor; [|constructor]. exists (gp_path g), ([L "--batch"] ++ homedirflags g ++ rest), (cf_bin c).
    split; [exact H3|]. assert (Haa : A acct) by (eapply HA; left; reflexivity). split; [exists acct; auto|]. apply located_found, H2. }
  destruct IH as [H1 H2]; auto.
  - intros; eapply HA; right; eauto.
  - intros; eapply HC; eauto; right; eauto.
  - split; [eapply progs_trans; eauto|exact H2].
Qed.

Lemma status_progs s n cfg v : WF s -> isalnum n = true -> config_of s n = Some cfg ->
  progs (fun b => b = cf_bin cfg) s (fst (arun (cli_status_account n v) s)).
Proof.
  intros Hw Ha Hc.
  destruct (ctx_TT (sc_gpg n) n cfg 0 (cli_status_account n v) (fun _ => True) s) as [ls [Hp [HF _]]]; auto; [|lia|].
  { apply inv_status_account; auto. intros l Hl. unfold not_own. destruct l; simpl in *; tauto. }
  rewrite Forall_forall in HF.
  destruct (path_progs (fun a => a = n) (fun _ b => b = cf_bin cfg) s ls _ Hp) as [H _].
  - intros a argv i t Hi. apply HF in Hi. exact Hi.
  - intros a c' _ Hi. apply HF in Hi. destruct Hi.
  - intros a cfg' -> H. congruence.
  - eapply progs_weaken; [|exact H]. intros b [_ [_ H0]]. exact H0.
Qed.
Lemma inited_trace s : a_trace (inited s) = a_trace s.
Proof. unfold inited. rewrite arun_ensure_init. destruct (version_of s); reflexivity. Qed.
Lemma create_progs s n regex kh bin mode : WF s -> version_of s <> None -> keygen_of s n = None -> isalnum n = true ->
  let r := arun (create n regex kh bin mode) s in
  progs (fun b => b = bin) s (fst r) /\ WF (fst r) /\ (snd r = Ok tt -> config_of (fst r) n = Some (CfgEntry (L "nopreference") n regex mode bin)).
Proof.
  intros Hw Hv Hk Ha. cbv zeta. set (c := CfgEntry (L "nopreference") n regex mode bin).
  unfold create. rewrite arun_bind. fold c. destruct (mem_text mode [L "own"; L "system"]) eqn:Em.
  2:{ change (arun (assert_ false) s) with (s, @Err unit AssertionError). cbn [fst snd]. split; [apply progs_refl; reflexivity|]. split; [exact Hw|discriminate]. }
  change (arun (assert_ true) s) with (s, @Ok unit tt). cbv iota beta.
  assert (Hvc : valid_cfg c = true).
  { unfold valid_cfg. simpl. unfold valid_mode. apply mem_text_In in Em. apply mem_text_In. simpl in *. tauto. }
  assert (He : arun (new_config n c) s = (app_log s (own_chain n) (ECfg c), @Ok unit tt)).
  { unfold new_config, mk_cfg_entry. fold (valid_cfg c). rewrite Hvc. cbn [lift bind]. apply arun_append. }
  rewrite arun_bind, He. cbv iota beta. set (s1 := app_log s (own_chain n) (ECfg c)). fold (create_rest n kh).
  assert (Hg : guard s (LCfg n c)) by (simpl; split; [exact Hv|split; [exact Ha|split; [exact Hvc|split; [reflexivity|left; exact Hk]]]]).
  assert (Hw1 : WF s1) by (apply (step_WF s Hw (LCfg n c) Hg)).
  assert (Hf : fresh_ctx n c s1) by (split; [apply config_app_cfg|unfold s1; rewrite keygen_app_cfg; exact Hk]).
  destruct (rest_triple n c kh Ha s1 Hw1 Hf) as [[ls [Hp [HF [HW HP]]]] _]. rewrite Forall_forall in HF.
  destruct (path_progs (fun a => a = n) (fun _ b => b = bin) s1 ls _ Hp) as [H _].
  - intros a argv i t Hi. apply HF in Hi. destruct Hi as [Hi|[kd [k Hi]]]; [exact Hi|discriminate].
  - intros a c' _ Hi. apply HF in Hi. destruct Hi as [Hi|[kd [k Hi]]]; [destruct Hi|discriminate].
  - intros a cfg -> H. destruct Hf as [Hf _]. rewrite Hf in H. injection H as <-. reflexivity.
  - split; [|split; [exact HW|intros H1; unfold create_rest in HP, H1; rewrite H1 in HP; exact HP]]. apply progs_trans with s1; [apply progs_refl; reflexivity|].
    eapply progs_weaken; [|exact H]. intros b [_ [_ H0]]. exact H0.
Qed.
Lemma creating_progs s c n mode : WF s -> creates c = Some (n, mode) -> progs (gives c n) s (after s c).
Proof.
  intros Hw Hc. destruct (exists_acct_dec s n) as [He|He].
  { destruct (add_state s c n mode Hc) as [regex [kh [bin [_ [_ [_ Herr]]]]]]. cbv zeta in Herr.
    rewrite add_existing_run in Herr by auto. destruct (Herr _ eq_refl) as [_ ->]. apply progs_refl; reflexivity. }
  destruct (isalnum n) eqn:Ha.
  - assert (Hcr : forall regex kh bin m, let r := arun (add_account n regex kh bin m) s in
      progs (fun b => b = bin) s (fst r) /\ WF (fst r) /\ (forall y, snd r = Ok y -> y = n /\ config_of (fst r) n = Some (new_cfg n regex bin m))).
    { intros regex kh bin m. cbv zeta. rewrite add_run by auto. rewrite arun_bind.
      destruct (create_progs (inited s) n (default_regex regex) kh bin m (inited_WF s Hw) (inited_version s)) as [H1 [H2 H3]]; auto.
      { unfold keygen_of. rewrite inited_own. apply keygen_none; auto. }
      destruct (arun (create n (default_regex regex) kh bin m) (inited s)) as [s1 [[]|e]]; cbn [fst snd arun run] in *.
      - split; [eapply progs_trans; [apply progs_refl, inited_trace|exact H1]|]. split; [exact H2|]. intros y [= <-]. split; [reflexivity|]. apply H3. reflexivity.
      - split; [eapply progs_trans; [apply progs_refl, inited_trace|exact H1]|]. split; [exact H2|]. discriminate. }
    unfold after. destruct c; simpl in Hc; try discriminate; injection Hc as -> Hm; cbn [exec].
    + destruct (Hcr regex kh gpgbin gpgmode) as [H1 _]. rewrite arun_bind. apply progs_weaken with (P := fun b => b = gpgbin); [simpl; auto|].
      destruct (arun (add_account n regex kh gpgbin gpgmode) s) as [s1 [y|e]]; exact H1.
    + unfold cli_add_account. rewrite Hm. destruct (Hcr regex use_key gpgbin mode) as [H1 [H2 H3]]. rewrite !arun_bind. apply progs_weaken with (P := fun b => b = gpgbin); [simpl; auto|].
      destruct (arun (add_account n regex use_key gpgbin mode) s) as [s1 [y|e]]; cbn [fst snd] in *; [|exact H1].
      destruct (H3 y eq_refl) as [-> H4]. pose proof (status_progs s1 n _ false H2 Ha H4) as H5.
      destruct (arun (cli_status_account n false) s1) as [s2 [st|e]]; cbn [fst] in *; (eapply progs_trans; [exact H1|exact H5]).
  - destruct (add_state s c n mode Hc) as [regex [kh [bin [_ [_ [_ Herr]]]]]]. cbv zeta in Herr.
    unfold add_account in Herr. rewrite arun_bind, arun_get_account_nocheck, Ha in Herr. fold (inited s) in Herr.
    destruct (Herr _ eq_refl) as [_ ->]. apply progs_refl, inited_trace.
Qed.
Lemma mod_run s n regex kh bin pref cfg : WF s -> exists_acct s n -> config_of s n = Some cfg ->
  let r := arun (mod_account n regex kh bin pref) s in
  a_trace (fst r) = a_trace s /\ WF (fst r) /\ (forall m, m <> n -> config_of (fst r) m = config_of s m) /\
  (exists cfg', config_of (fst r) n = Some cfg' /\ (snd r = Ok (false, n) \/ snd r = Ok (true, n) -> cf_bin cfg' = match bin with Some b => b | None => cf_bin cfg end) /\
     (cf_bin cfg' = match bin with Some b => b | None => cf_bin cfg end \/ cf_bin cfg' = cf_bin cfg)) /\
  (forall y, snd r = Ok y -> snd y = n /\ isalnum n = true /\ (y = (false, n) \/ y = (true, n))).
Proof.
  intros Hw He Hc. cbv zeta.
  destruct (triple_mod_account n regex kh bin pref s Hw I) as [[ls [_ [_ [HW _]]]] _].
  pose proof (exists_isalnum s n Hw He) as Ha.
  revert HW. unfold mod_account. rewrite arun_bind, (arun_get_account s n Hw He).
  rewrite arun_bind, arun_change_config, Hc. set (c' := evolve cfg pref regex bin).
  destruct (valid_cfg c') eqn:Hv.
  - destruct (cfg_eqb c' cfg) eqn:Ee; cbn [fst snd arun run]; intros HW.
    + split; [reflexivity|]. split; [exact HW|]. split; [auto|]. split.
      * exists cfg. split; [exact Hc|]. assert (Hb : cf_bin cfg = match bin with Some b => b | None => cf_bin cfg end).
        { unfold cfg_eqb in Ee. subst c'. unfold evolve in Ee. cbn in Ee. repeat (apply andb_prop in Ee as [Ee ?]).
          repeat match goal with H : text_eqb _ _ = true |- _ => apply text_eqb_eq in H end. congruence. }
        auto.
      * intros y [= <-]. auto.
    + split; [reflexivity|]. split; [exact HW|]. split.
      * intros m Hm. unfold config_of. rewrite alog_app. destruct (text_eqb_spec (own_chain m) (own_chain n)) as [H|]; [|reflexivity].
        apply own_chain_inj in H. contradiction.
      * split; [exists c'; rewrite config_app_cfg; split; [reflexivity|]; split; [reflexivity|left; reflexivity]|]. intros y [= <-]. auto.
  - cbn [fst snd arun run]. intros HW. split; [reflexivity|]. split; [exact HW|]. split; [auto|].
    split; [exists cfg; split; [exact Hc|]; split; [intros [H|H]; discriminate|right; reflexivity]|]. discriminate.
Qed.

Lemma trace_none s c n g : ~ exists_acct s n -> names c = Some n -> creates c = None -> ran s (after s c) g -> False.
Proof.
  intros He Hn Hc [l [Ht Hi]]. unfold after in Ht. rewrite (unknown_run s c n He Hn Hc) in Ht. cbn [fst] in Ht. rewrite inited_trace in Ht.
  change (a_trace s) with ([] ++ a_trace s) in Ht at 1. apply app_inv_tail in Ht. subst l. destruct Hi.
Qed.
Lemma same_trace_none s s' g : a_trace s' = a_trace s -> ran s s' g -> False.
Proof. intros H [l [Ht Hi]]. rewrite H in Ht. change (a_trace s) with ([] ++ a_trace s) in Ht at 1. apply app_inv_tail in Ht. subst l. destruct Hi. Qed.

Lemma after_mod s n regex kh bin pref : after s (AMod n regex kh bin pref) = fst (arun (mod_account n regex kh bin pref) s).
Proof. unfold after. cbn [exec]. rewrite arun_bind. destruct (arun (mod_account n regex kh bin pref) s) as [s1 [[ch a]|e]]; reflexivity. Qed.

Theorem c70_named : forall s c a g, reachable s -> names c = Some a -> (forall m, c <> ACliDel m) -> ran s (after s c) g ->
  exists p rest b, gc_argv g = p :: rest /\ program_name s c a b /\ located b p.
Proof.
  intros s c a g Hr Hn Hd Hran. pose proof (reachable_WF s Hr) as Hw.
  destruct (creates c) as [[n mode]|] eqn:Hc.
  { assert (n = a) by (destruct c; simpl in *; try discriminate; congruence). subst n.
    destruct (progs_ran _ _ _ _ (creating_progs s c a mode Hw Hc) Hran) as [p [rest [b [H1 [H2 H3]]]]]. exists p, rest, b. split; [exact H1|]. split; [left; exact H2|exact H3]. }
  destruct (exists_acct_dec s a) as [He|He]; [|exfalso; eapply trace_none; eauto].
  destruct He as [cfg [k [Hcfg Hk]]]. assert (He : exists_acct s a) by (exists cfg, k; auto).
  assert (Ho : own_of s a = Some (cfg, kg_kh k)) by (apply own_of_some; eauto).
  assert (HP : progs (program_name s c a) s (after s c)).
  { assert (Hgen : (forall x, ~ gives c a x) -> (forall b c', ~ api_scope c (LCfg b c')) -> progs (program_name s c a) s (after s c)).
    { intros Hx Hy. destruct (after_path s c Hw) as [ls [Hp HF]]. rewrite Forall_forall in HF.
      destruct (path_progs (fun b => b = a) (fun _ b => b = cf_bin cfg) s ls _ Hp) as [H _].
      - intros b argv i t Hi. eapply scope_gpg_names; eauto.
      - intros b c' _ Hi. exfalso. eapply Hy. eauto.
      - intros b c' -> H. congruence.
      - eapply progs_weaken; [|exact H]. intros b [_ [_ ->]]. right. split; [exact Hx|]. exists cfg, (kg_kh k). auto. }
    destruct c; try discriminate Hc; try (apply Hgen; [intros x Hx; exact Hx|intros b c' Hs; unfold api_scope, sc_a, sc_gpg in Hs; intuition (try discriminate; try contradiction); fail]).
    - simpl in Hn. injection Hn as ->. rewrite after_mod. apply progs_refl. apply (mod_run s a regex kh gpgbin pref cfg Hw He Hcfg).
    - simpl in Hn. injection Hn as ->. unfold after. cbn [exec]. unfold cli_mod_account. rewrite !arun_bind.
      set (bin := match gpgbin with Some b => b | None => L "gpg" end).
      destruct (mod_run s a regex use_key (Some bin) pref cfg Hw He Hcfg) as [H1 [H2 [_ [[cfg' [H3 [H4 _]]] H5]]]].
      destruct (arun (mod_account a regex use_key (Some bin) pref) s) as [s1 [y|e]]; cbn [fst snd] in *; [|apply progs_refl; exact H1].
      destruct (H5 y eq_refl) as [H6 [Ha H7]]. destruct y as [ch n]. cbn [snd] in H6. subst n.
      rewrite arun_bind. pose proof (status_progs s1 a cfg' false H2 Ha H3) as H8.
      assert (Hb : cf_bin cfg' = bin) by (apply H4; destruct H7 as [->| ->]; auto).
      assert (H9 : progs (program_name s (ACliMod a use_key gpgbin regex pref) a) s (fst (arun (cli_status_account a false) s1))).
      { eapply progs_trans; [apply progs_refl; exact H1|]. eapply progs_weaken; [|exact H8]. intros b ->. left. simpl. split; [reflexivity|]. symmetry. exact Hb. }
      destruct (arun (cli_status_account a false) s1) as [s2 [st|e]]; exact H9.
    - apply Hgen; [intros x Hx; exact Hx|]. intros b c' [Hs|[a' [_ Hs]]]; [discriminate|]. eapply inc_scope_not_own in Hs. exact (Hs eq_refl). }
  destruct (progs_ran _ _ _ _ HP Hran) as [p [rest [b [H1 [H2 H3]]]]]. exists p, rest, b. auto.
Qed.

Lemma scope_gives c a c' : (forall n regex kh bin pref, c <> AMod n regex kh bin pref) -> api_scope c (LCfg a c') -> gives c a (cf_bin c').
Proof.
  intros Hm Hs. destruct c; cbn [api_scope sc_any sc_add sc_mod sc_gpg] in Hs; unfold sc_a, sc_gpg in Hs; try (exfalso; intuition (discriminate || contradiction); fail).
  all: first [ exfalso; eapply Hm; reflexivity
    | destruct Hs as [-> ->]; simpl; auto; fail
    | destruct Hs as [[-> [_ [Hb _]]]|[]]; simpl; split; [reflexivity|]; symmetry; apply Hb; reflexivity
    | destruct Hs as [Hs|[b [_ Hs]]]; [discriminate|]; eapply inc_scope_not_own in Hs; exfalso; exact (Hs eq_refl)
    | destruct Hs as [[]|[b [mt [m' [_ Hs]]]]]; eapply inc_scope_not_own in Hs; exfalso; exact (Hs eq_refl)
    | destruct Hs as [[]|[b Hs]]; eapply inc_scope_not_own in Hs; exfalso; exact (Hs eq_refl)
    | destruct Hs as [Hs|Hs]; [discriminate|]; eapply inc_scope_not_own in Hs; exfalso; exact (Hs eq_refl) ].
Qed.
Lemma call_progs (G : text -> text -> Prop) s c : WF s -> (forall a b, gives c a b -> G a b) ->
  (forall a cfg, config_of s a = Some cfg -> G a (cf_bin cfg)) ->
  progs (fun b => exists a, G a b) s (after s c) /\ (forall a cfg, config_of (after s c) a = Some cfg -> G a (cf_bin cfg)).
Proof.
  intros Hw Hg HG.
  assert (Hgen : (forall n regex kh bin pref, c <> AMod n regex kh bin pref) ->
    progs (fun b => exists a, G a b) s (after s c) /\ (forall a cfg, config_of (after s c) a = Some cfg -> G a (cf_bin cfg))).
  { intros Hm. destruct (after_path s c Hw) as [ls [Hp HF]]. rewrite Forall_forall in HF.
    destruct (path_progs (fun _ => True) G s ls _ Hp) as [H1 H2]; auto.
    - intros a c' _ Hi. apply Hg. apply scope_gives; auto.
    - split; [|eauto]. eapply progs_weaken; [|exact H1]. intros b [a [_ H]]. eauto. }
  destruct c; try (apply Hgen; discriminate). clear Hgen.
  destruct (exists_acct_dec s name) as [He|He].
  - rewrite after_mod. destruct He as [cfg [k [Hcfg Hk]]]. assert (He : exists_acct s name) by (exists cfg, k; auto).
    destruct (mod_run s name regex kh gpgbin pref cfg Hw He Hcfg) as [H1 [H2 [H3 [[cfg' [H4 [_ H5]]] H6]]]].
    split; [apply progs_refl; exact H1|]. intros a c0 Hc0. destruct (text_eqb_spec a name) as [->|Ha].
    + rewrite H4 in Hc0. injection Hc0 as <-. destruct H5 as [H5|H5]; rewrite H5; [|auto].
      destruct gpgbin as [b|]; [|auto]. apply Hg. simpl. auto.
    + rewrite H3 in Hc0 by exact Ha. auto.
  - unfold after. rewrite (unknown_run s (AMod name regex kh gpgbin pref) name He eq_refl eq_refl). cbn [fst]. split; [apply progs_refl, inited_trace|].
    intros a cfg. unfold config_of. rewrite inited_own. apply HG.
Qed.
Lemma after_all_snoc s cs c : after_all s (cs ++ [c]) = after (after_all s cs) c.
Proof. rewrite after_all_app, after_all_cons. reflexivity. Qed.
Theorem c70_history : forall cs c g, ran (after_all ast0 cs) (after (after_all ast0 cs) c) g ->
  exists p rest b a d, gc_argv g = p :: rest /\ located b p /\ In d (cs ++ [c]) /\ gives d a b.
Proof.
  intros cs c g Hran. set (G := fun l a b => exists d, In d l /\ gives d a b).
  assert (Hinv : forall cs, WF (after_all ast0 cs) /\ forall a cfg, config_of (after_all ast0 cs) a = Some cfg -> G cs a (cf_bin cfg)).
  { clear. intros cs. induction cs as [|d cs [IH1 IH2]] using rev_ind.
    - split; [apply WF_init|]. intros a cfg H. discriminate H.
    - rewrite after_all_snoc. split; [apply WF_after, IH1|].
      apply (call_progs (G (cs ++ [d]))); [exact IH1| |].
      + intros a b H. exists d. split; [apply in_or_app; right; left; reflexivity|exact H].
      + intros a cfg H. destruct (IH2 a cfg H) as [e [H1 H2]]. exists e. split; [apply in_or_app; left; exact H1|exact H2]. }
  destruct (Hinv cs) as [Hw HG].
  destruct (call_progs (G (cs ++ [c])) (after_all ast0 cs) c Hw) as [HP _].
  - intros a b H. exists c. split; [apply in_or_app; right; left; reflexivity|exact H].
  - intros a cfg H. destruct (HG a cfg H) as [e [H1 H2]]. exists e. split; [apply in_or_app; left; exact H1|exact H2].
  - destruct (progs_ran _ _ _ _ HP Hran) as [p [rest [b [H1 [[a [d [H2 H3]]] H4]]]]]. exists p, rest, b, a, d. auto.
Qed.
End Prog.
