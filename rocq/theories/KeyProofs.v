(** The keys of new accounts (C72, C73, C74). *)
From Verif Require Import Base PyStr Env Prog Chain Gpg Mime States Recommendation Account Cmdline Bot Fs Api Steps StepFacts Exec ApiScope
  Spec Obs PeerSpec OutSpec AcctSpec PeerFacts Quiet OutProofs AcctFacts AcctProofs AcctProofs2 Rings ImportProofs CliSpec CliProofs CliProofs2 CliProofs3 GpgSpec GpgText ProgProofs KeySpec KeyText.

Section KeyProofs.
Context {E : Env}.

(** ** Single commands *)
Definition before_ring (s : ast) (g : bingpg) (args : list text) : ring := ring_at (a_rings s) (argv_home (full_argv g args)).
Lemma outerr_exact g args inp tmp strict dec s s' out err :
  arun (gpg_outerr g args inp tmp strict dec) s = (s', Ok (out, err)) ->
  let full := full_argv g args in let r := before_ring s g args in
  s' = AState (a_logs s) (dset (a_rings s) (argv_home full) (fst (gpg r full inp tmp))) (a_tick s) (a_uuid s) (GCall (argv_home full) full inp tmp :: a_trace s) /\
  utf8 (g_err (snd (gpg r full inp tmp))) = Some err /\
  (if dec then utf8 (g_out (snd (gpg r full inp tmp))) else Some (g_out (snd (gpg r full inp tmp)))) = Some out.
Proof.
  intros H full r. unfold gpg_outerr in H. apply arun_bind_ok in H as [s1 [res [H1 H2]]].
  unfold arun in H1. cbn [perform run astep] in H1. change ([gp_path g; L "--batch"] ++ homedirflags g ++ args) with full in H1.
  fold r in H1. change (ring_at (a_rings s) (argv_home full)) with r in H1.
  destruct (gpg r full inp tmp) as [r' res'] eqn:Eg. injection H1 as <- <-. cbn [fst snd].
  destruct (Z.eqb (g_ret res') 130) eqn:E1; [discriminate|].
  destruct (utf8 (g_err res')) as [er|]; [|discriminate].
  destruct (if dec then utf8 (g_out res') else Some (g_out res')) as [o|] eqn:Eo; [|discriminate].
  destruct (_ || _); [discriminate|]. apply arun_ret_ok in H2 as [-> H2]. injection H2 as <- <-. auto.
Qed.
Definition gstart (g : bingpg) : list text := [gp_path g; L "--batch"] ++ homedirflags g.
Lemma full_start g args : full_argv g args = gstart g ++ args.
Proof. unfold full_argv, gstart. rewrite <- app_assoc. reflexivity. Qed.
(** the ring of commands of one BinGPG: the words are never mistaken for a home directory *)
Definition first_word_ok (args : list text) : Prop := match args with [] => False | x :: _ => x <> L "--homedir" end.
Lemma home_fixed g args : first_word_ok args -> argv_home (full_argv g args) = argv_home (gstart g ++ [[]]).
Proof.
  unfold full_argv, gstart, homedirflags. destruct args as [|x args]; [intros []|]. cbn [first_word_ok]. intros Hx.
  destruct (gp_home g) as [h|]; [destruct (nonempty h)|]; cbn [app argv_home]; try reflexivity;
    (destruct args; [reflexivity|]; destruct (text_eqb_spec x (L "--homedir")); [congruence|reflexivity]).
Qed.
Lemma list_pub_exact g x s s' l : arun (list_public_keyinfos g x) s = (s', Ok l) ->
  exists out, utf8 (g_out (snd (gpg (ring_at (a_rings s) (argv_home (gstart g ++ [[]]))) (gstart g ++ [L "--skip-verify"; L "--with-colons"; L "--list-public-keys"; x]) None None))) = Some out /\
    map (fun k => (ki_id k, ki_uids k)) l = keys_in (L "pub") (L "sub") out.
Proof.
  unfold list_public_keyinfos, parse_list. intros H. apply arun_bind_ok in H as [s1 [[out err] [H1 H]]]. apply arun_lift_ok in H as [-> H].
  apply outerr_exact in H1 as [_ [_ H3]]. unfold before_ring in H3. rewrite home_fixed, full_start in H3 by discriminate.
  exists out. split; [exact H3|]. apply parse_keys; [discriminate|discriminate|exact H].
Qed.
Lemma list_sec_exact g x s s' l : arun (list_secret_keyinfos g x) s = (s', Ok l) ->
  let argv := gstart g ++ [L "--skip-verify"; L "--with-colons"; L "--list-secret-keys"; x] in
  only_gpg s s' /\ a_trace s' = GCall (argv_home argv) argv None None :: a_trace s /\
  exists out, utf8 (g_out (snd (gpg (ring_at (a_rings s) (argv_home (gstart g ++ [[]]))) argv None None))) = Some out /\
    map (fun k => (ki_id k, ki_uids k)) l = keys_in (L "sec") (L "ssb") out.
Proof.
  intros H argv. unfold list_secret_keyinfos, parse_list in H. apply arun_bind_ok in H as [s1 [[out err] [H1 H]]]. apply arun_lift_ok in H as [-> H].
  pose proof H1 as H0. apply gpg_outerr_ok in H0 as [H0 _]. split; [exact H0|].
  apply outerr_exact in H1 as [H2 [_ H3]]. unfold before_ring in H3. rewrite home_fixed in H3 by discriminate. rewrite full_start in *. fold argv in H2, H3. subst s1.
  split; [reflexivity|]. exists out. split; [exact H3|]. apply parse_keys; [discriminate|discriminate|exact H].
Qed.
Lemma find_keyhandle_exact g err s s' kh : arun (find_keyhandle g err) s = (s', Ok kh) ->
  reported (ring_at (a_rings s) (argv_home (gstart g ++ [[]]))) (gstart g) err kh.
Proof.
  unfold find_keyhandle. intros H. destruct (search_key err) as [x|] eqn:Es; [|discriminate]. apply search_spec in Es.
  exists x. split; [exact Es|]. destruct (Nat.leb_spec (length x) 8) as [Hl|Hl].
  - right. split; [exact Hl|]. apply arun_bind_ok in H as [s1 [l [H1 H]]]. apply list_pub_exact in H1 as [out [H1 H2]].
    destruct (find _ l) as [k|] eqn:Ef; [|discriminate]. apply arun_ret_ok in H as [_ ->]. exists out, (ki_uids k). split; [exact H1|].
    rewrite <- H2. eapply (find_first _ _ (fun k => (ki_id k, ki_uids k))) in Ef; [exact Ef|]. intros k'. apply ki_match_spec.
  - left. split; [exact Hl|]. apply arun_ret_ok in H as [_ ->]. reflexivity.
Qed.

(** ** New accounts *)
Lemma bingpg_exact a s s' g : arun (get_bingpg a) s = (s', Ok g) -> s' = s /\ exists c, config_of s a = Some c /\ located (cf_bin c) (gp_path g) /\
  (cf_mode c = L "own" \/ cf_mode c = L "system") /\ gp_home g = home_of c a.
Proof.
  intros H. pose proof (get_bingpg_ok _ _ _ _ H) as ->. split; [reflexivity|]. unfold get_bingpg in H. apply arun_bind_ok in H as [s1 [c [H1 H]]].
  apply own_config_ok in H1 as [-> Hc]. exists c. split; [exact Hc|]. destruct (nonempty (cf_bin c)); [|discriminate]. cbn [negb] in H. unfold home_of.
  destruct (text_eqb_spec (cf_mode c) (L "own")) as [Em|Em].
  - apply arun_lift_ok in H as [_ H]. apply mk_bingpg_made in H as [H1 H2]. split; [apply located_found, H2|]. auto.
  - destruct (text_eqb_spec (cf_mode c) (L "system")) as [Es|Es]; [|discriminate]. apply arun_lift_ok in H as [_ H]. apply mk_bingpg_made in H as [H1 H2].
    split; [apply located_found, H2|]. auto.
Qed.
Lemma made_start g c a : gp_home g = home_of c a -> gstart g = start_of (gp_path g) (cf_mode c) a.
Proof.
  unfold gstart, start_of, homedirflags, home_of. intros ->. destruct (text_eqb (cf_mode c) (L "own")); [|reflexivity].
  unfold own_gpghome. destruct (nonempty _) eqn:En; [reflexivity|]. exfalso. destruct basedir; discriminate En.
Qed.
Lemma made_ring g c a s : gp_home g = home_of c a -> ring_at (a_rings s) (argv_home (gstart g ++ [[]])) = ring_used s (cf_mode c) a.
Proof.
  intros H. rewrite (made_start g c a H). unfold start_of, ring_used, ring_content. destruct (text_eqb (cf_mode c) (L "own")); reflexivity.
Qed.
Definition first_cfg (n regex mode bin : text) : cfg_entry := CfgEntry (L "nopreference") n regex mode bin.
Lemma create_start s n regex kh bin mode s' : arun (create n regex kh bin mode) s = (s', Ok tt) ->
  exists s1, a_rings s1 = a_rings s /\ a_trace s1 = a_trace s /\ a_uuid s1 = a_uuid s /\ config_of s1 n = Some (first_cfg n regex mode bin) /\
    arun (create_rest n kh) s1 = (s', Ok tt).
Proof.
  intros H. unfold create in H. apply arun_bind_ok in H as [s1 [u [H1 H]]]. apply arun_assert_ok in H1 as [-> _].
  apply arun_bind_ok in H as [s2 [u2 [H1 H]]]. unfold new_config in H1. apply arun_bind_ok in H1 as [s1 [e [H0 H1]]]. apply arun_lift_ok in H0 as [-> H0].
  unfold mk_cfg_entry in H0. destruct (_ && _); [|discriminate]. injection H0 as <-. rewrite arun_append in H1. injection H1 as <- _.
  exists (app_log s (own_chain n) (ECfg (first_cfg n regex mode bin))). split; [reflexivity|]. split; [reflexivity|]. split; [reflexivity|]. split; [apply config_app_cfg|]. exact H.
Qed.
Lemma rest_end g n kh' s s' : arun (keydata <- get_secret_keydata g kh' false ;; append_keygen n keydata kh') s = (s', Ok tt) ->
  grown s s' /\ exists kd, keygen_of s' n = Some (KeygenEntry kd kh').
Proof.
  intros H. apply arun_bind_ok in H as [s1 [kd [H1 H]]]. unfold append_keygen in H. rewrite arun_append in H. injection H as <-.
  assert (Hq : quiet (get_secret_keydata g kh' false)) by apply quiet_get_secret_keydata.
  split; [destruct (quiet_only_gpg _ _ _ _ Hq H1) as [_ H2]; exact H2|]. exists kd. apply keygen_app_keygen.
Qed.
Lemma create_given s n regex h bin mode s' : arun (create n regex (Some h) bin mode) s = (s', Ok tt) ->
  exists p out us kh kd, located bin p /\ (mode = L "own" \/ mode = L "system") /\
    let argv := start_of p mode n ++ [L "--skip-verify"; L "--with-colons"; L "--list-secret-keys"; h] in
    ran s s' (GCall (argv_home argv) argv None None) /\
    utf8 (g_out (snd (gpg (ring_used s mode n) argv None None))) = Some out /\
    first_such (named_by h) (keys_in (L "sec") (L "ssb") out) (kh, us) /\ keygen_of s' n = Some (KeygenEntry kd kh).
Proof.
  intros H. apply create_start in H as [s1 [R1 [R2 [R3 [R4 H]]]]]. unfold create_rest in H.
  apply arun_bind_ok in H as [s3 [kh' [H1 H]]].
  apply arun_bind_ok in H1 as [s2 [g [H0 H1]]]. apply bingpg_exact in H0 as [-> [c [Hc [Hl [Hm Hh]]]]]. rewrite R4 in Hc. injection Hc as <-.
  apply arun_bind_ok in H1 as [s2 [r [H0 H1]]]. destruct r as [h'|]; [|discriminate]. apply arun_ret_ok in H1 as [-> ->].
  unfold get_secret_keyhandle in H0. apply arun_bind_ok in H0 as [s4 [l [H0 H2]]]. apply arun_ret_ok in H2 as [-> H2].
  destruct (find _ l) as [k|] eqn:Ef; [|discriminate]. injection H2 as ->.
  apply list_sec_exact in H0. cbv zeta in H0. destruct H0 as [_ [Ht [out [Ho Hk]]]].
  apply arun_bind_ok in H as [s5 [g2 [H1 H]]]. apply get_bingpg_ok in H1 as ->. apply rest_end in H as [Hg [kd Hkd]].
  rewrite (made_ring g (first_cfg n regex mode bin) n s1 Hh) in Ho. rewrite (made_start g (first_cfg n regex mode bin) n Hh) in Ho, Ht.
  cbn [first_cfg cf_mode cf_bin] in *.
  exists (gp_path g), out, (ki_uids k), (ki_id k), kd. split; [exact Hl|]. split; [exact Hm|]. cbv zeta. split; [|split; [|split; [|exact Hkd]]].
  - destruct Hg as [l' Hg]. rewrite Ht, R2 in Hg. eexists. split; [rewrite Hg; change (?x :: a_trace s) with ([x] ++ a_trace s); rewrite app_assoc; reflexivity|].
    apply in_or_app. right. left. reflexivity.
  - unfold ring_used, ring_content in *. rewrite R1 in Ho. exact Ho.
  - rewrite <- Hk. eapply (find_first _ _ (fun k => (ki_id k, ki_uids k))) in Ef; [exact Ef|]. intros k'. apply named_spec.
Qed.
Lemma create_generated s n regex bin mode s' : arun (create n regex None bin mode) s = (s', Ok tt) ->
  exists p pass spec err kh kd, located bin p /\ (mode = L "own" \/ mode = L "system") /\ pass_args pass /\
    to_utf8 (key_settings (uuid_hex (a_uuid s) ++ L "@random.muacrypt.org")) = Some spec /\
    let argv := start_of p mode n ++ pass ++ [L "--gen-key"; L "<tmpfile>"] in
    ran s s' (GCall (argv_home argv) argv None (Some spec)) /\
    utf8 (g_err (snd (gpg (ring_used s mode n) argv None (Some spec)))) = Some err /\
    reported (fst (gpg (ring_used s mode n) argv None (Some spec))) (start_of p mode n) err kh /\ keygen_of s' n = Some (KeygenEntry kd kh).
Proof.
  intros H. apply create_start in H as [s1 [R1 [R2 [R3 [R4 H]]]]]. unfold create_rest in H.
  apply arun_bind_ok in H as [s3 [kh' [H1 H]]]. apply arun_bind_ok in H1 as [s1' [id [H0 H1]]].
  unfold arun in H0. cbn [perform run astep] in H0. injection H0 as <- <-.
  set (s1' := AState _ _ _ _ _) in H1.
  apply arun_bind_ok in H1 as [s2 [g [H0 H1]]]. apply bingpg_exact in H0 as [-> [c [Hc [Hl [Hm Hh]]]]].
  change (config_of s1' n) with (config_of s1 n) in Hc. rewrite R4 in Hc. injection Hc as <-.
  unfold gen_secret_key in H1. apply arun_bind_ok in H1 as [s2 [spec [H0 H1]]]. apply arun_lift_ok in H0 as [-> Hspec].
  apply arun_bind_ok in H1 as [s2 [b [H0 H1]]]. unfold version_known in H0. apply arun_lift_ok in H0 as [-> _].
  apply arun_bind_ok in H1 as [s2 [[out err] [H0 H1]]]. apply outerr_exact in H0. cbv zeta in H0. unfold before_ring in H0.
  assert (Hw : first_word_ok (nopassphrase g ++ [L "--gen-key"; L "<tmpfile>"])) by (unfold nopassphrase; discriminate).
  rewrite !(home_fixed g _ Hw) in H0. rewrite (made_ring g (first_cfg n regex mode bin) n s1' Hh) in H0.
  destruct H0 as [Hs2 [Herr _]]. pose proof (home_fixed g _ Hw) as Hhome.
  pose proof H1 as Hf. assert (Hq : quiet (find_keyhandle g err)) by apply quiet_find_keyhandle.
  destruct (quiet_only_gpg _ _ _ _ Hq Hf) as [_ [l2 Hg2]]. clear Hf Hq. apply find_keyhandle_exact in H1.
  apply arun_bind_ok in H as [s5 [g2 [H2 H]]]. apply get_bingpg_ok in H2 as ->. apply rest_end in H as [[l3 Hg3] [kd Hkd]].
  subst s2. cbn [a_rings a_trace] in *. rewrite ring_at_dset, text_eqb_refl in H1. rewrite full_start in *. rewrite !(made_start g (first_cfg n regex mode bin) n Hh) in *.
  cbn [first_cfg cf_mode cf_bin] in *. change (ring_used s1' mode n) with (ring_used s1 mode n) in *. change (a_trace s1') with (a_trace s1) in *.
  assert (Hr : ring_used s1 mode n = ring_used s mode n) by (unfold ring_used, ring_content; rewrite R1; reflexivity). rewrite Hr in *.
  exists (gp_path g), (nopassphrase g), spec, err, kh', kd. split; [exact Hl|]. split; [exact Hm|]. split; [apply nopass_args|].
  split. { rewrite <- R3. unfold encode_utf8 in Hspec. destruct (to_utf8 _) as [b'|] eqn:Eb in Hspec; [|discriminate]. injection Hspec as <-. exact Eb. }
  cbv zeta. split; [|split; [exact Herr|split; [exact H1|exact Hkd]]].
  rewrite Hg2, R2 in Hg3. exists (l3 ++ l2 ++ [GCall (argv_home (start_of (gp_path g) mode n ++ nopassphrase g ++ [L "--gen-key"; L "<tmpfile>"])) (start_of (gp_path g) mode n ++ nopassphrase g ++ [L "--gen-key"; L "<tmpfile>"]) None (Some spec)]).
  split; [rewrite Hg3, <- !app_assoc; cbn [app]; rewrite Hhome; reflexivity|apply in_or_app; right; apply in_or_app; right; left; reflexivity].
Qed.

Lemma add_key s n regex kh bin mode s' y : WF s -> ~ exists_acct s n -> arun (add_account n regex kh bin mode) s = (s', Ok y) ->
  exists s0, a_rings s0 = a_rings s /\ a_trace s0 = a_trace s /\ a_uuid s0 = a_uuid s /\ arun (create n (default_regex regex) kh bin mode) s0 = (s', Ok tt).
Proof.
  intros Hw He H. destruct (isalnum n) eqn:Ha.
  - rewrite add_run in H by auto. apply arun_bind_ok in H as [s1 [[] [H1 H]]]. apply arun_ret_ok in H as [-> _].
    exists (inited s). unfold inited in *. rewrite arun_ensure_init in *. destruct (version_of s); auto.
  - unfold add_account in H. rewrite arun_bind, arun_get_account_nocheck, Ha in H. discriminate.
Qed.
Lemma creates_run s c n mode bin kh r : WF s -> creates_with c n mode bin kh -> answer s c = Ok r ->
  exists regex s0 s1, a_rings s0 = a_rings s /\ a_trace s0 = a_trace s /\ a_uuid s0 = a_uuid s /\ arun (create n regex kh bin mode) s0 = (s1, Ok tt) /\
    grown s1 (after s c) /\ keygen_of (after s c) n = keygen_of s1 n.
Proof.
  intros Hw Hc Ha. destruct (exists_acct_dec s n) as [He|He].
  { exfalso. unfold answer in Ha. destruct c; cbn [creates_with] in Hc; try contradiction; cbn [exec] in Ha.
    - destruct Hc as [-> [-> [-> ->]]]. rewrite arun_bind, add_existing_run in Ha by auto. discriminate.
    - destruct Hc as [-> [Hm [-> ->]]]. unfold cli_add_account in Ha. rewrite !arun_bind, add_existing_run in Ha by auto. discriminate. }
  unfold answer, after in *. destruct c; cbn [creates_with] in Hc; try contradiction; cbn [exec] in *.
  - destruct Hc as [-> [-> [-> ->]]]. rewrite arun_bind in *. destruct (arun (add_account n regex kh bin mode) s) as [s1 [y|e]] eqn:Ea; [|discriminate].
    destruct (add_key _ _ _ _ _ _ _ _ Hw He Ea) as [s0 [H1 [H2 [H3 H4]]]]. exists (default_regex regex), s0, s1. cbn [fst arun run]. do 4 (split; [assumption|]). split; [apply grown_refl|reflexivity].
  - destruct Hc as [-> [Hm [-> ->]]]. unfold cli_add_account in *. rewrite Hm in *. rewrite !arun_bind in *. destruct (arun (add_account n regex kh bin mode) s) as [s1 [y|e]] eqn:Ea; [|discriminate].
    pose proof (add_account_name _ _ _ _ _ _ _ _ Ea) as ->.
    destruct (add_key _ _ _ _ _ _ _ _ Hw He Ea) as [s0 [H1 [H2 [H3 H4]]]]. exists (default_regex regex), s0, s1. do 4 (split; [assumption|]).
    assert (Hq : quiet (cli_status_account n false)) by apply quiet_status_account.
    destruct (arun (cli_status_account n false) s1) as [s2 rr] eqn:Es. pose proof (quiet_only_gpg _ _ _ _ Hq Es) as Ho.
    destruct (quiet_logs _ s1 Hq) as [Hl _]. rewrite Es in Hl. cbn [fst] in Hl.
    assert (Hk : keygen_of s2 n = keygen_of s1 n) by (unfold keygen_of, alog; rewrite Hl; reflexivity).
    destruct rr as [x|e]; cbn [fst arun run] in *; (split; [apply only_grown, Ho|exact Hk]).
Qed.
Lemma ring_used_same s s' mode n : a_rings s' = a_rings s -> ring_used s' mode n = ring_used s mode n.
Proof. intros H. unfold ring_used, ring_content. rewrite H. reflexivity. Qed.
Lemma ran_same s s0 s1 s' g : a_trace s0 = a_trace s -> ran s0 s1 g -> grown s1 s' -> ran s s' g.
Proof. intros H H1 H2. apply (ran_grown s s0 s1 s'); [exists []; exact H|exact H1|exact H2]. Qed.
Lemma created_own s c n kd kh : WF s -> keygen_of (after s c) n = Some (KeygenEntry kd kh) -> exists cfg, own_of (after s c) n = Some (cfg, kh).
Proof.
  intros Hw Hk. pose proof (WF_after s c Hw) as Hw'. assert (He : exists cfg, config_of (after s c) n = Some cfg).
  { pose proof (keygen_config _ n Hw') as H. destruct (config_of (after s c) n) as [cfg|]; [eauto|exfalso; apply H; congruence]. }
  destruct He as [cfg He]. exists cfg. rewrite own_of_spec, He, Hk by exact Hw'. reflexivity.
Qed.
Theorem c72_given : forall s c n mode bin h r, reachable s -> creates_with c n mode bin (Some h) -> answer s c = Ok r ->
  exists p out us cfg kh, located bin p /\
    let argv := start_of p mode n ++ [L "--skip-verify"; L "--with-colons"; L "--list-secret-keys"; h] in
    ran s (after s c) (GCall (argv_home argv) argv None None) /\
    utf8 (g_out (snd (gpg (ring_used s mode n) argv None None))) = Some out /\
    first_such (named_by h) (keys_in (L "sec") (L "ssb") out) (kh, us) /\ own_of (after s c) n = Some (cfg, kh).
Proof.
  intros s c n mode bin h r Hr Hc Ha. pose proof (WF_reachable s Hr) as Hw.
  destruct (creates_run s c n mode bin (Some h) r Hw Hc Ha) as [regex [s0 [s1 [R1 [R2 [R3 [H [Hg Hk]]]]]]]].
  apply create_given in H as [p [out [us [kh [kd [H1 [_ [H2 [H3 [H4 H5]]]]]]]]]]. rewrite H5 in Hk. destruct (created_own s c n kd kh Hw Hk) as [cfg Ho].
  rewrite (ring_used_same s s0 mode n R1) in H3. exists p, out, us, cfg, kh. split; [exact H1|]. cbv zeta. split; [eapply ran_same; eauto|]. auto.
Qed.
Theorem c73_generated : forall s c n mode bin r, reachable s -> creates_with c n mode bin None -> answer s c = Ok r ->
  exists p pass spec err cfg kh, located bin p /\ pass_args pass /\
    to_utf8 (key_settings (uuid_hex (a_uuid s) ++ L "@random.muacrypt.org")) = Some spec /\
    let argv := start_of p mode n ++ pass ++ [L "--gen-key"; L "<tmpfile>"] in
    ran s (after s c) (GCall (argv_home argv) argv None (Some spec)) /\
    utf8 (g_err (snd (gpg (ring_used s mode n) argv None (Some spec)))) = Some err /\
    reported (fst (gpg (ring_used s mode n) argv None (Some spec))) (start_of p mode n) err kh /\ own_of (after s c) n = Some (cfg, kh).
Proof.
  intros s c n mode bin r Hr Hc Ha. pose proof (WF_reachable s Hr) as Hw.
  destruct (creates_run s c n mode bin None r Hw Hc Ha) as [regex [s0 [s1 [R1 [R2 [R3 [H [Hg Hk]]]]]]]].
  apply create_generated in H as [p [pass [spec [err [kh [kd [H1 [_ [H2 [H3 [H4 [H5 [H6 H7]]]]]]]]]]]]]. rewrite H7 in Hk. destruct (created_own s c n kd kh Hw Hk) as [cfg Ho].
  rewrite (ring_used_same s s0 mode n R1) in *. rewrite R3 in H3. exists p, pass, spec, err, cfg, kh. split; [exact H1|]. split; [exact H2|]. split; [exact H3|]. cbv zeta. split; [eapply ran_same; eauto|]. auto.
Qed.
End KeyProofs.
