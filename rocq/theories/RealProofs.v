(** What the gpg processes of a call really put out (C96). *)
From Verif Require Import Base PyStr Env Prog Chain Gpg Mime States Recommendation Account Cmdline Bot Fs Api Steps StepFacts Exec ApiScope
  Spec PeerSpec OutSpec AcctSpec CliSpec TalkSpec FailSpec RealSpec Obs PeerFacts Quiet OutProofs OutProofs2 AcctFacts AcctProofs AcctProofs2 Rings FailProofs Utf8.

Section RealProofs.
Context {E : Env}.

(** only these processes were started, and nothing was written *)
Definition moved (s s' : ast) (gs : list gcall) : Prop :=
  a_trace s' = rev gs ++ a_trace s /\ a_rings s' = rings_after (a_rings s) gs /\ a_logs s' = a_logs s.
Lemma moved_refl s : moved s s []. Proof. repeat split. Qed.
Lemma moved_did s s' gs l : moved s s' gs -> l = runs (a_rings s) gs -> did s s' l.
Proof. intros [H _] ->. exists gs. auto. Qed.
Lemma moved_two s s1 s' g1 g2 : moved s s1 g1 -> moved s1 s' g2 ->
  moved s s' (g1 ++ g2) /\ runs (a_rings s) (g1 ++ g2) = runs (a_rings s) g1 ++ runs (a_rings s1) g2.
Proof.
  intros [T1 [R1 L1]] [T2 [R2 L2]]. rewrite runs_app, <- R1. split; [|reflexivity].
  split; [|split; [|congruence]].
  - rewrite T2, T1, rev_app_distr, app_assoc. reflexivity.
  - rewrite rings_after_app, <- R1. exact R2.
Qed.

Lemma outerr_moved g argv inp tmp strict dec s s' out err :
  arun (gpg_outerr g argv inp tmp strict dec) s = (s', Ok (out, err)) ->
  exists res, let gc := GCall (argv_home (full_argv g argv)) (full_argv g argv) inp tmp in
    moved s s' [gc] /\ runs (a_rings s) [gc] = [(gc, res)] /\ g_ret res = 0%Z /\ utf8 (g_err res) = Some err /\
    (if dec then utf8 (g_out res) else Some (g_out res)) = Some out /\ (strict = true -> err = []).
Proof.
  intros H. set (full := full_argv g argv). unfold gpg_outerr in H. apply arun_bind_ok in H as [s1 [r [H1 H2]]].
  unfold arun in H1. cbn [perform run astep] in H1.
  change ([gp_path g; L "--batch"] ++ homedirflags g ++ argv) with full in H1.
  destruct (gpg (ring_at (a_rings s) (argv_home full)) full inp tmp) as [r' res] eqn:Eg.
  injection H1 as <- <-.
  destruct (Z.eqb (g_ret res) 130) eqn:E1; [discriminate|].
  destruct (utf8 (g_err res)) as [er|] eqn:Ee; [|discriminate].
  destruct (if dec then utf8 (g_out res) else Some (g_out res)) as [o|] eqn:Eo; [|discriminate].
  destruct (negb (Z.eqb (g_ret res) 0) || (strict && nonempty er)) eqn:E2; [discriminate|].
  apply arun_ret_ok in H2 as [-> H2]. injection H2 as -> ->.
  apply orb_false_iff in E2 as [E2 E3]. apply negb_false_iff, Z.eqb_eq in E2.
  exists res. cbv zeta. split; [|split; [|split; [exact E2|split; [exact Ee|split; [exact Eo|]]]]].
  - split; [reflexivity|]. split; [|reflexivity]. cbn [rings_after gc_home gc_argv gc_in gc_tmp]. rewrite Eg. reflexivity.
  - cbn [runs gc_home gc_argv gc_in gc_tmp]. rewrite Eg. reflexivity.
  - intros ->. destruct er; [reflexivity|discriminate].
Qed.

Lemma bingpg_home a s s' g c : config_of s a = Some c -> arun (get_bingpg a) s = (s', Ok g) ->
  s' = s /\ match gp_home g with Some h => h | None => [] end = ring_of_mode a (cf_mode c).
Proof.
  unfold get_bingpg. intros Hc H. apply arun_bind_ok in H as [s1 [c1 [H1 H]]]. apply own_config_ok in H1 as [-> Hc'].
  assert (c1 = c) by congruence. subst c1. unfold ring_of_mode.
  destruct (negb (nonempty (cf_bin c))); [discriminate|].
  assert (Hm : forall h b, mk_bingpg h (cf_bin c) = Ok b -> gp_home b = h).
  { intros h b. unfold mk_bingpg. destruct (find_executable (cf_bin c)) as [p|]; [|discriminate].
    destruct h as [h|]; cbn [rbind]; [|intros [= <-]; reflexivity].
    destruct (wants_agent_conf p); cbn [rbind]; [intros [= <-]; reflexivity|discriminate]. }
  destruct (text_eqb (cf_mode c) (L "own")).
  - apply arun_lift_ok in H as [-> H]. rewrite (Hm _ _ H). auto.
  - destruct (text_eqb (cf_mode c) (L "system")); [|discriminate]. apply arun_lift_ok in H as [-> H]. rewrite (Hm _ _ H). auto.
Qed.
Lemma homedir_args g : home_args (homedirflags g).
Proof. unfold home_args, homedirflags. destruct (gp_home g) as [h|]; [destruct (nonempty h); eauto|auto]. Qed.

Lemma public_real a c s g kh armor s' kd : config_of s a = Some c -> match gp_home g with Some h => h | None => [] end = ring_of_mode a (cf_mode c) ->
  arun (get_public_keydata g kh armor) s = (s', Ok kd) ->
  exists argv res, moved s s' [fst (process_of a c argv None res)] /\ runs (a_rings s) [fst (process_of a c argv None res)] = [process_of a c argv None res] /\
    export_command argv armor kh /\ g_ret res = 0%Z /\ g_err res = [] /\ g_out res = kd.
Proof.
  intros Hc Hh H. unfold get_public_keydata in H. apply arun_bind_ok in H as [s1 [[out err] [H1 H2]]].
  apply arun_ret_ok in H2 as [-> ->]. apply outerr_moved in H1 as [res [H1 [H2 [H3 [H4 [H5 H6]]]]]]. injection H5 as H5.
  rewrite (H6 eq_refl) in H4. apply utf8_inverse in H4. injection H4 as H4. rewrite (full_home g _ None None (gc_export_pub g armor kh)), Hh in H1, H2.
  eexists _, res. unfold process_of. cbn [fst]. split; [exact H1|]. split; [exact H2|]. split; [|auto].
  exists (gp_path g), (homedirflags g). split; [apply homedir_args|]. unfold full_argv, armor_args. destruct armor; reflexivity.
Qed.

Lemma secret_real a c s g kh s' kd : config_of s a = Some c -> match gp_home g with Some h => h | None => [] end = ring_of_mode a (cf_mode c) ->
  arun (get_secret_keydata g kh true) s = (s', Ok kd) ->
  exists argv res, moved s s' [fst (process_of a c argv None res)] /\ runs (a_rings s) [fst (process_of a c argv None res)] = [process_of a c argv None res] /\
    secret_command argv kh /\ g_ret res = 0%Z /\ g_err res = [] /\ g_out res = kd.
Proof.
  intros Hc Hh H. unfold get_secret_keydata, version_known in H. apply arun_bind_ok in H as [sv [v [Hv H]]]. apply arun_lift_ok in Hv as [-> _].
  apply arun_bind_ok in H as [s1 [[out err] [H1 H2]]].
  apply arun_ret_ok in H2 as [-> ->]. apply outerr_moved in H1 as [res [H1 [H2 [H3 [H4 [H5 H6]]]]]]. injection H5 as H5.
  rewrite (H6 eq_refl) in H4. apply utf8_inverse in H4. injection H4 as H4.
  rewrite (full_home g _ None None (gc_export_sec g true kh)), Hh in H1, H2.
  eexists _, res. unfold process_of. cbn [fst]. split; [exact H1|]. split; [exact H2|]. split; [|auto].
  exists (gp_path g), (homedirflags g), (if gpg21 (gp_path g) then [L "--pinentry-mode=loopback"] else []).
  split; [apply homedir_args|]. split; [destruct (gpg21 (gp_path g)); auto|]. unfold full_argv, nopassphrase. rewrite <- !app_assoc. reflexivity.
Qed.

Lemma header_real a x s s' v c k : config_of s a = Some c -> keygen_of s a = Some k -> arun (make_ac_header a x) s = (s', Ok v) ->
  exists p, moved s s' [fst p] /\ runs (a_rings s) [fst p] = [p] /\ header_process a c (kg_kh k) x v p.
Proof.
  intros Hc Hk H. unfold make_ac_header in H. apply arun_bind_ok in H as [s1 [g [H1 H]]]. apply (bingpg_home a s s1 g c Hc) in H1 as [-> Hh].
  apply arun_bind_ok in H as [s1 [kh [H1 H]]]. apply own_keyhandle_ok in H1 as [-> [k' [Hk' ->]]]. assert (k' = k) by congruence. subst k'.
  apply arun_bind_ok in H as [s1 [kd [H1 H]]]. apply (public_real a c) in H1 as [argv [res [M [R [X [Z0 [Z1 Z2]]]]]]]; [|assumption..].
  apply arun_bind_ok in H as [s2 [c' [H1 H]]]. apply own_config_ok in H1 as [-> Hc'].
  apply arun_lift_ok in H as [-> Hv]. exists (process_of a c argv None res). split; [exact M|]. split; [exact R|].
  assert (c' = c). { unfold config_of, alog in Hc, Hc'. rewrite (proj2 (proj2 M)) in Hc'. congruence. } subst c'.
  exists argv, res. subst kd. repeat (split; [first [reflexivity|assumption]|]). exact Hv.
Qed.

Lemma encrypt_real s s' a m to em khs own c : WF s -> own_of s a = Some (c, own) ->
  arun (encrypt_mime a m to) s = (s', Ok (em, khs)) ->
  exists p, moved s s' [fst p] /\ runs (a_rings s) [fst p] = [p] /\ encrypt_process s a c own m to khs em p.
Proof.
  intros Hw Ho H. destruct (encrypt_mime_ok s s' a m to em khs own c Hw Ho H) as [_ [K [gs [clear [data [enc [I1 [I2 [I3 [I4 [I5 [I6 I7]]]]]]]]]]]].
  assert (He : exists_acct s a) by (eapply own_exists; eauto).
  destruct (wf_config s a c own Hw Ho) as [Hc [k [Hk Hkh]]].
  unfold encrypt_mime in H. apply arun_bind_ok in H as [s1 [[] [H1 H]]]. apply arun_assert_ok in H1 as [-> _].
  apply arun_bind_ok in H as [s1 [[khs0 clear0] [H1 H]]].
  apply encrypt_recipients_ok in H1 as [-> _]; auto.
  apply arun_bind_ok in H as [s1 [own' [H1 H]]]. apply own_keyhandle_ok in H1 as [-> [k' [Hk' ->]]]. assert (k' = k) by congruence. subst k'.
  apply arun_bind_ok in H as [s1 [data0 [H1 H]]]. apply arun_lift_ok in H1 as [-> Hd].
  apply arun_bind_ok in H as [s1 [g [H1 H]]]. apply (bingpg_home a s s1 g c Hc) in H1 as [-> Hh].
  apply arun_bind_ok in H as [s1 [out0 [H1 H]]].
  cbv zeta in H. apply arun_ret_ok in H as [-> H]. injection H as H ->.
  unfold gpg_encrypt, version_known in H1. apply arun_bind_ok in H1 as [sv [v [Hv H1]]]. apply arun_lift_ok in Hv as [-> _].
  apply arun_bind_ok in H1 as [s2 [[out err] [H1 H2]]]. apply arun_ret_ok in H2 as [-> ->].
  apply outerr_moved in H1 as [res [M [R [Z0 [_ [Z1 _]]]]]]. injection Z1 as Z1.
  rewrite (full_home g _ (Some data0) None (gc_encrypt g data0 khs0 (kg_kh k))), Hh in M, R.
  assert (Hout : enc = out).
  { assert (Hb : m_body em = pgp_body out) by (rewrite H; apply transfer_headers). rewrite I6 in Hb. unfold pgp_body in Hb. congruence. }
  assert (Hdata : data0 = data).
  { destruct I5 as [h1 [argv1 [r1 [[l [T Hi]] _]]]]. rewrite (proj1 M) in T. apply app_inv_tail in T. subst l. destruct Hi as [Hi|[]]. congruence. }
  exists (process_of a c (full_argv g (encrypt_argv g khs0 (kg_kh k))) (Some data) res). subst data0 enc own.
  split; [exact M|]. split; [exact R|]. eexists _, data, res, gs, clear. split; [reflexivity|]. split; [apply encrypt_argv_command|].
  rewrite Z1. auto 10.
Qed.

Theorem c96_header : forall s a x v, reachable s -> answer s (AHeader a x) = Ok (OText v) ->
  exists c kh p, own_of s a = Some (c, kh) /\ did s (after s (AHeader a x)) [p] /\ header_process a c kh x v p.
Proof.
  intros s a x v Hr. pose proof (reachable_WF s Hr) as Hw. unfold answer, after. cbn [exec].
  destruct (exists_acct_dec s a) as [He|He]; [|rewrite arun_with_account_none by auto; discriminate].
  rewrite arun_with_account by auto. rewrite arun_bind. destruct (arun (make_ac_header a x) s) as [s1 [v1|e]] eqn:Ed; cbn [snd fst]; [|discriminate].
  cbn. intros [= ->]. destruct (exists_own s a Hw He) as [c [own Ho]]. destruct (wf_config s a c own Hw Ho) as [Hc [k [Hk Hkh]]].
  destruct (header_real a x s s1 v c k Hc Hk Ed) as [p [M [R P]]]. subst own.
  exists c, (kg_kh k), p. split; [exact Ho|]. split; [eapply moved_did; eauto|exact P].
Qed.
Theorem c96_public : forall s a kh key, reachable s -> answer s (AExportPub a kh) = Ok (OBytes key) ->
  exists c own argv res, own_of s a = Some (c, own) /\ did s (after s (AExportPub a kh)) [process_of a c argv None res] /\
    export_command argv true (match kh with Some h => h | None => own end) /\ g_ret res = 0%Z /\ g_err res = [] /\ g_out res = key.
Proof.
  intros s a kh key Hr. pose proof (reachable_WF s Hr) as Hw. unfold answer, after. cbn [exec].
  destruct (exists_acct_dec s a) as [He|He]; [|rewrite arun_with_account_none by auto; discriminate].
  rewrite arun_with_account by auto. rewrite arun_bind. destruct (arun (export_public_key a kh) s) as [s1 [v1|e]] eqn:Ed; cbn [snd fst]; [|discriminate].
  cbn. intros [= ->]. destruct (exists_own s a Hw He) as [c [own Ho]]. destruct (wf_config s a c own Hw Ho) as [Hc [k [Hk Hkh]]].
  unfold export_public_key in Ed. apply arun_bind_ok in Ed as [s2 [h [H1 H]]].
  assert (Hh : s2 = s /\ h = match kh with Some h => h | None => own end).
  { destruct kh; [apply arun_ret_ok in H1; tauto|]. apply own_keyhandle_ok in H1 as [-> [k' [Hk' ->]]]. split; congruence. }
  destruct Hh as [-> ->]. apply arun_bind_ok in H as [s2 [g [H2 H]]]. apply (bingpg_home a s s2 g c Hc) in H2 as [-> Hh].
  apply (public_real a c) in H as [argv [res [M [R P]]]]; auto. exists c, own, argv, res. split; [exact Ho|]. split; [eapply moved_did; eauto|exact P].
Qed.
Theorem c96_secret : forall s a key, reachable s -> answer s (AExportSec a) = Ok (OBytes key) ->
  exists c own argv res, own_of s a = Some (c, own) /\ did s (after s (AExportSec a)) [process_of a c argv None res] /\
    secret_command argv own /\ g_ret res = 0%Z /\ g_err res = [] /\ g_out res = key.
Proof.
  intros s a key Hr. pose proof (reachable_WF s Hr) as Hw. unfold answer, after. cbn [exec].
  destruct (exists_acct_dec s a) as [He|He]; [|rewrite arun_with_account_none by auto; discriminate].
  rewrite arun_with_account by auto. rewrite arun_bind. destruct (arun (export_secret_key a) s) as [s1 [v1|e]] eqn:Ed; cbn [snd fst]; [|discriminate].
  cbn. intros [= ->]. destruct (exists_own s a Hw He) as [c [own Ho]]. destruct (wf_config s a c own Hw Ho) as [Hc [k [Hk Hkh]]].
  unfold export_secret_key in Ed. apply arun_bind_ok in Ed as [s2 [g [H2 H]]]. apply (bingpg_home a s s2 g c Hc) in H2 as [-> Hh].
  apply arun_bind_ok in H as [s2 [h [H1 H]]]. apply own_keyhandle_ok in H1 as [-> [k' [Hk' ->]]]. assert (k' = k) by congruence. subst k' own.
  apply (secret_real a c) in H as [argv [res [M [R P]]]]; auto. exists c, (kg_kh k), argv, res. split; [exact Ho|]. split; [eapply moved_did; eauto|exact P].
Qed.
Theorem c96_encrypt : forall s a m to em khs, reachable s -> answer s (AEncrypt a m to) = Ok (OEncrypted em khs) ->
  exists c own p, own_of s a = Some (c, own) /\ did s (after s (AEncrypt a m to)) [p] /\ encrypt_process s a c own m to khs em p.
Proof.
  intros s a m to em khs Hr H. pose proof (reachable_WF s Hr) as Hw. apply answer_encrypt in H as [He H]; [|exact Hr].
  destruct (exists_own s a Hw He) as [c [own Ho]]. destruct (encrypt_real _ _ _ _ _ _ _ own c Hw Ho H) as [p [M [R P]]].
  exists c, own, p. split; [exact Ho|]. split; [eapply moved_did; eauto|exact P].
Qed.
Theorem c96_decrypt : forall s a m dm infos, reachable s -> answer s (ADecrypt a m) = Ok (ODecrypted dm infos) ->
  exists c own argv enc res, own_of s a = Some (c, own) /\ cipher_of m = Some enc /\
    did s (after s (ADecrypt a m)) [process_of a c argv (Some enc) res] /\ decrypt_command argv /\ g_ret res = 0%Z /\
    m_body dm = m_body (parse_bytes (g_out res)) /\ m_headers dm = m_headers (parse_bytes (g_out res)) ++ outer_headers m.
Proof.
  intros s a m dm infos Hr. pose proof (reachable_WF s Hr) as Hw. unfold answer, after. cbn [exec].
  destruct (exists_acct_dec s a) as [He|He]; [|rewrite arun_with_account_none by auto; discriminate].
  rewrite arun_with_account by auto. rewrite arun_bind. destruct (arun (decrypt_mime a m) s) as [s1 [[d1 i1]|e]] eqn:Ed; cbn [snd fst]; [|discriminate].
  cbn. intros [= -> ->]. destruct (exists_own s a Hw He) as [c [own Ho]]. destruct (wf_config s a c own Hw Ho) as [Hc [k [Hk Hkh]]].
  rename Ed into H. unfold decrypt_mime in H. apply arun_bind_ok in H as [s2 [b [H1 H]]]. apply arun_lift_ok in H1 as [-> Hb].
  apply arun_bind_ok in H as [s2 [[] [H1 H]]]. apply arun_assert_ok in H1 as [-> Hbt]. subst b.
  unfold cipher_of. destruct (m_body m) as [| | |[|p0 [|p1 [|]]]]; try discriminate.
  apply arun_bind_ok in H as [s2 [enc [H1 H]]].
  assert (Henc : s2 = s /\ (match m_body p1 with PBytes d | PStr d => Some d | _ => None end) = Some enc).
  { destruct (m_body p1) as [|t|d|l]; try discriminate.
    - destruct (is_ascii t); [|discriminate]. apply arun_ret_ok in H1 as [-> ->]. auto.
    - destruct (is_ascii d); [|discriminate]. apply arun_ret_ok in H1 as [-> ->]. auto. }
  destruct Henc as [-> Henc]. clear H1. apply arun_bind_ok in H as [s2 [g [H1 H]]]. apply (bingpg_home a s s2 g c Hc) in H1 as [-> Hh].
  apply arun_bind_ok in H as [s2 [[dec inf] [H1 H]]]. apply arun_ret_ok in H as [-> [= -> ->]].
  unfold gpg_decrypt, version_known in H1. apply arun_bind_ok in H1 as [sv [v [Hv H1]]]. apply arun_lift_ok in Hv as [-> _].
  apply arun_bind_ok in H1 as [s3 [[out err] [H1 H]]].
  apply arun_bind_ok in H as [s4 [inf' [H2 H]]]. apply arun_lift_ok in H2 as [-> Hi]. apply arun_ret_ok in H as [-> [= -> ->]].
  apply outerr_moved in H1 as [res [M [R [Z0 [Z1 [Z2 _]]]]]]. injection Z2 as Z2.
  rewrite (full_home g _ (Some enc) None (gc_decrypt g enc)), Hh in M, R.
  eexists c, own, _, enc, res. split; [exact Ho|]. split; [exact Henc|]. split; [eapply moved_did; [exact M|symmetry; exact R]|].
  split; [apply decrypt_argv_command|]. split; [exact Z0|]. destruct (opened_headers m out) as [O1 O2]. subst out. auto.
Qed.
Theorem c96_outgoing : forall s a m o, reachable s -> answer s (AOutgoing a m) = Ok (OOutgoing o) ->
  exists c own l1 l2, own_of s a = Some (c, own) /\ did s (after s (AOutgoing a m)) (l1 ++ l2) /\
    ((hget_all m (L "Autocrypt") <> [] /\ out_added o = None /\ l1 = []) \/
     (hget_all m (L "Autocrypt") = [] /\ exists v p, out_added o = Some v /\ l1 = [p] /\ header_process a c own (from_addr m) v p)) /\
    ((prepared m (out_added o) (out_msg o) /\ l2 = []) \/
     (is_encrypted m = Ok false /\ exists m2 to khs p, prepared m (out_added o) m2 /\
        (forall x, In x to <-> In x (targets m) \/ x = from_addr m) /\
        l2 = [p] /\ encrypt_process s a c own m2 to khs (out_msg o) p)).
Proof.
  intros s a m o Hr H. pose proof (reachable_WF s Hr) as Hw. apply answer_outgoing in H as [He H]; [|exact Hr].
  destruct (exists_own s a Hw He) as [c [own Ho]]. destruct (wf_config s a c own Hw Ho) as [Hc [k [Hk Hkh]]].
  apply outgoing_ok in H as [_ [_ [_ [s1 [m2 [Hr1 [Hg [Hp [Hadd Hway]]]]]]]]]; [|exact Hr|exact He].
  set (s' := after s (AOutgoing a m)) in *. clearbody s'. subst own.
  assert (H1 : exists l1, (exists gs, moved s s1 gs /\ l1 = runs (a_rings s) gs) /\
    ((hget_all m (L "Autocrypt") <> [] /\ out_added o = None /\ l1 = []) \/
     (hget_all m (L "Autocrypt") = [] /\ exists v p, out_added o = Some v /\ l1 = [p] /\ header_process a c (kg_kh k) (from_addr m) v p))).
  { destruct Hadd as [[A1 [A2 ->]]|[A1 [v [A2 A3]]]].
    - exists []. split; [exists []; split; [apply moved_refl|reflexivity]|auto].
    - destruct (header_real _ _ _ _ _ c k Hc Hk A3) as [p [M [R P]]]. exists [p]. split; [exists [fst p]; auto|]. right. split; [exact A1|]. exists v, p. auto. }
  destruct H1 as [l1 [[gs1 [M1 R1]] A]].
  assert (H2 : exists l2, (exists gs, moved s1 s' gs /\ l2 = runs (a_rings s1) gs) /\
    ((prepared m (out_added o) (out_msg o) /\ l2 = []) \/
     (is_encrypted m = Ok false /\ exists m2 to khs p, prepared m (out_added o) m2 /\
        (forall x, In x to <-> In x (targets m) \/ x = from_addr m) /\
        l2 = [p] /\ encrypt_process s a c (kg_kh k) m2 to khs (out_msg o) p))).
  { destruct Hway as [[W1 [W2 W3]]|[W1 [f [r [W2 [W3 [[W4 [W5 W6]]|[W4 [W5 [khs W6]]]]]]]]]].
    - subst s'. exists []. split; [exists []; split; [apply moved_refl|reflexivity]|]. left. rewrite W2. auto.
    - subst s'. exists []. split; [exists []; split; [apply moved_refl|reflexivity]|]. left. rewrite W4. auto.
    - pose proof (reachable_WF s1 Hr1) as Hw1.
      assert (Hs : forall y, peer_of s1 a y = peer_of s a y /\ own_of s1 a = own_of s a).
      { intros y. destruct (same_peer s s1 a y Hw Hw1 (proj1 Hg) He) as [_ Hx]. exact Hx. }
      destruct (encrypt_real s1 s' a m2 (everyone m) (out_msg o) khs (kg_kh k) c Hw1) as [p [M [R P]]]; [rewrite (proj2 (Hs [])); exact Ho|exact W6|].
      exists [p]. split; [exists [fst p]; auto|]. right. split; [exact W1|]. exists m2, (everyone m), khs, p. split; [exact Hp|]. split; [apply In_everyone|].
      split; [reflexivity|]. destruct P as [argv [data [res [gs [clear [P1 [P2 [P3 [P4 [P5 P6]]]]]]]]]].
      exists argv, data, res, gs, clear. do 3 (split; [assumption|]). split; [|split; [|exact P6]].
      + clear - P4 Hs. induction P4; constructor; auto. destruct H as [v [H H0]]. exists v. rewrite <- (proj1 (Hs _)), <- (proj2 (Hs [])). auto.
      + clear - P5 Hs. induction P5; constructor; auto. destruct H as [v [H H0]]. exists v. rewrite <- (proj1 (Hs _)). auto. }
  destruct H2 as [l2 [[gs2 [M2 R2]] B]]. exists c, (kg_kh k), l1, l2. split; [exact Ho|]. split; [|auto].
  destruct (moved_two s s1 s' gs1 gs2 M1 M2) as [M R]. eapply moved_did; [exact M|]. rewrite R, R1, R2. reflexivity.
Qed.
End RealProofs.
