(** gpg command lines, dates, resent mail, reports of the command line. *)
From Verif Require Import Base PyStr Base64 Env Prog Chain Gpg Mime States Recommendation Account Cmdline Bot Fs Api Steps StepFacts Exec ApiScope
  Spec Obs PeerSpec Incoming PeerFacts RecSpec RecProofs Quiet OutSpec OutProofs OutProofs2 AcctSpec AcctFacts AcctProofs AcctProofs2 Rings MimeTree CliSpec CliProofs.

Section Cli2.
Context {E : Env}.

(** ** C55 *)
Lemma nopass_args g : pass_args (nopassphrase g).
Proof. unfold nopassphrase, pass_args. destruct (gpg21 (gp_path g)); auto. Qed.
Lemma cmd_usage g rest inp tmp : gpg_cmd g rest inp tmp -> gpg_use (nopassphrase g) rest inp tmp.
Proof.
  intros H; destruct H.
  - apply (use_list _ true).
  - apply (use_list _ false).
  - apply use_generate with (addr := random_address k).
    unfold encode_utf8 in H. destruct (to_utf8 (key_spec (random_address k))) as [b|] eqn:Eb; [|discriminate]. injection H as <-. rewrite <- Eb.
    f_equal.
  - apply use_export.
  - apply use_export_secret.
  - unfold encrypt_argv. replace (if nonempty sk then [L "--sign"; L "-u"; sk] else []) with (signing sk) by (destruct sk; reflexivity).
    apply use_encrypt.
  - apply use_decrypt.
  - apply use_import.
  - apply use_delete.
Qed.
Lemma flags_home g : home_args (homedirflags g).
Proof.
  unfold homedirflags, home_args. destruct (gp_home g) as [[|x h]|]; cbn [nonempty]; eauto.
Qed.
(** the settings in use are those of a BinGPG object *)
Definition bingpg_usage (g : gcall) : Prop :=
  exists b c rest, gc_argv g = [gp_path b; L "--batch"] ++ homedirflags b ++ rest /\ made_for b c (cf_name c) /\ gpg_cmd b rest (gc_in g) (gc_tmp g).
Lemma step_usage s l : WF s -> guard s l -> exists new, a_trace (step l s) = new ++ a_trace s /\ Forall bingpg_usage new.
Proof.
  intros Hw Hg.
  assert (Hs : a_trace (step l s) = a_trace s -> exists new, a_trace (step l s) = new ++ a_trace s /\ Forall bingpg_usage new)
    by (intros H; exists []; auto).
  destruct l; try (apply Hs; apply step_world; [discriminate|intros; discriminate]).
  - destruct Hg as [_ [g [c [rest [Hcf [Hm [-> Hc]]]]]]]. unfold step. cbn [step_prog]. unfold arun. cbn [perform bind run astep].
    destruct (gpg _ _ _ _) as [r' res]. cbn [run fst a_trace]. exists [GCall (argv_home (full_argv g rest)) (full_argv g rest) inp tmp].
    split; [reflexivity|]. constructor; [|constructor]. exists g, c, rest. cbn [gc_argv gc_in gc_tmp].
    split; [reflexivity|]. split; [|exact Hc]. destruct (wf_own s Hw acct) as [H0|[_ H0]]; [unfold config_of in Hcf; rewrite H0 in Hcf; discriminate|].
    destruct (own_ok_config _ _ H0) as [c1 [Hc1 [_ Hn1]]]. unfold config_of in Hcf. rewrite Hcf in Hc1. injection Hc1 as <-. rewrite Hn1. exact Hm.
  - apply Hs. reflexivity.
Qed.
Lemma path_usage s ls s' : path s ls s' -> WF s -> exists new, a_trace s' = new ++ a_trace s /\ Forall bingpg_usage new.
Proof.
  induction 1 as [s|s l ls s' Hg Hp IH]; intros Hw; [exists []; auto|]. destruct IH as [n2 [H3 H4]]; [apply step_WF; auto|].
  destruct (step_usage s l Hw Hg) as [n1 [H1 H2]]. exists (n2 ++ n1). rewrite H3, H1, app_assoc. split; [reflexivity|]. apply Forall_app. auto.
Qed.
Theorem bingpg_forms : forall s c g, reachable s -> ran s (after s c) g -> bingpg_usage g.
Proof.
  intros s c g Hr [l [Ht Hi]]. destruct (after_path s c (reachable_WF s Hr)) as [ls [Hp _]].
  apply path_usage in Hp as [new [H1 H2]]; [|apply reachable_WF; exact Hr]. rewrite H1 in Ht. apply app_inv_tail in Ht. subst l.
  rewrite Forall_forall in H2. auto.
Qed.
Theorem c55_forms : forall s c g, reachable s -> ran s (after s c) g -> gpg_usage g.
Proof.
  intros s c g Hr Hg. destruct (bingpg_forms s c g Hr Hg) as [b [cfg [rest [H1 [H2 H3]]]]].
  exists (gp_path b), (homedirflags b), (nopassphrase b), rest. split; [exact H1|]. split; [apply flags_home|]. split; [apply nopass_args|].
  apply cmd_usage, H3.
Qed.

(** what incoming mail makes muacrypt ask gpg for *)
Definition inc_op (X : Type) (o : cop X) : Prop :=
  match o with
  | CGpg argv inp tmp => exists path home args, argv = [path; L "--batch"] ++ home ++ args /\ home_args home /\ mail_use args inp tmp
  | CRmTree | CRemoveIf _ => False
  | _ => True
  end.
Notation inc := (allowed inc_op).
Ltac incs := repeat match goal with
  | |- allowed _ (bind _ _) => apply allowed_bind; [|intros]
  | |- allowed _ (lift _) => apply allowed_lift
  | |- allowed _ (assert_ _) => apply allowed_assert
  | |- allowed _ (perform _) => apply allowed_perform; exact I
  | |- allowed _ (Ret _) => constructor
  | |- allowed _ (Raise _) => constructor
  | |- allowed _ (match ?x with _ => _ end) => destruct x
  | |- allowed _ (let (_, _) := ?x in _) => destruct x
  end.
Lemma inc_outerr g argv i t st dec : mail_use argv i t -> inc (gpg_outerr g argv i t st dec).
Proof.
  intros H. unfold gpg_outerr. apply allowed_bind.
  - apply allowed_perform. exists (gp_path g), (homedirflags g), argv. split; [reflexivity|]. split; [apply flags_home|exact H].
  - intros r. destruct (Z.eqb _ _); [constructor|]. destruct (utf8 _); [|constructor]. destruct (if dec then _ else _); [|constructor].
    destruct (_ || _); constructor.
Qed.
Lemma span_hex_all s : Forall (fun c => (48 <= c <= 57)%N \/ (65 <= c <= 70)%N) (span_hex s).
Proof.
  induction s as [|c s IH]; cbn [span_hex]; [constructor|]. destruct (is_hex c) eqn:Eh; [|constructor]. constructor; [|exact IH].
  unfold is_hex in Eh. apply orb_prop in Eh as [Eh|Eh]; apply andb_prop in Eh as [E1 E2]; apply N.leb_le in E1, E2; auto.
Qed.
Lemma search_key_hex s x : search_key s = Some x -> hex_id x.
Proof.
  assert (Hm : forall s, match_key_at s = Some x -> hex_id x).
  { intros t. unfold match_key_at. destruct (startswith _ t); [|discriminate]. cbv zeta.
    match goal with |- (if nonempty ?h then _ else _) = _ -> _ => assert (Ha : Forall (fun c => (48 <= c <= 57)%N \/ (65 <= c <= 70)%N) h)
      by (destruct (startswith _ _); [apply span_hex_all|constructor]); destruct (nonempty h) eqn:E1 end.
    - intros [= <-]. apply nonempty_true in E1. split; assumption.
    - destruct (nonempty (span_hex (skipn 4 t))) eqn:E2; [|discriminate]. intros [= <-]. apply nonempty_true in E2.
      split; [exact E2|apply span_hex_all]. }
  induction s as [|c s IH]; cbn [search_key].
  - destruct (match_key_at []) eqn:Em; [|discriminate]. intros H. rewrite H in Em. eapply Hm; eauto.
  - destruct (match_key_at (c :: s)) eqn:Em; [|exact IH]. intros H. rewrite H in Em. eapply Hm; eauto.
Qed.
Lemma inc_find_keyhandle g e : inc (find_keyhandle g e).
Proof.
  unfold find_keyhandle. destruct (search_key e) as [x|] eqn:Es; [|constructor]. apply search_key_hex in Es.
  destruct (Nat.leb _ _); [|constructor]. apply allowed_bind.
  - unfold list_public_keyinfos, parse_list. apply allowed_bind; [apply inc_outerr; constructor; exact Es|]. intros [o er]. apply allowed_lift.
  - intros l. destruct (find _ l); constructor.
Qed.
Lemma inc_own_config a : inc (own_config a).
Proof. unfold own_config. apply allowed_bind; [apply allowed_perform; exact I|]. intros l. destruct (latest_config l); constructor. Qed.
Lemma inc_own_keyhandle a : inc (own_keyhandle a).
Proof. unfold own_keyhandle. apply allowed_bind; [apply allowed_perform; exact I|]. intros l. destruct (latest_keygen l); constructor. Qed.
Lemma inc_get_bingpg a : inc (get_bingpg a).
Proof.
  unfold get_bingpg. apply allowed_bind; [apply inc_own_config|]. intros c. destruct (negb _); [constructor|].
  destruct (text_eqb _ _); [apply allowed_lift|]. destruct (text_eqb _ _); [apply allowed_lift|constructor].
Qed.
Lemma inc_import_key a p : inc (import_key a p).
Proof.
  unfold import_key. apply allowed_bind; [apply inc_get_bingpg|]. intros g. destruct (p_keydata p); [|constructor].
  apply allowed_catch.
  - apply allowed_bind; [|intros; constructor]. unfold import_keydata.
    apply allowed_bind; [apply inc_outerr; constructor|]. intros [o e]. apply allowed_bind; [apply inc_find_keyhandle|]. intros; constructor.
  - intros e q. destruct e; try discriminate. intros [= <-]. constructor.
Qed.
Lemma inc_update chain id d pr kd kh : inc (update_from_msg chain id d pr kd kh).
Proof.
  unfold update_from_msg. cbv zeta.
  incs.
Qed.
Lemma inc_update_gossip chain id d kd kh : inc (update_from_msg_gossip chain id d kd kh).
Proof.
  unfold update_from_msg_gossip. cbv zeta.
  incs.
Qed.
Lemma inc_decrypt_mime a m : inc (decrypt_mime a m).
Proof.
  unfold decrypt_mime. apply allowed_bind; [apply allowed_lift|]. intros b. apply allowed_bind; [apply allowed_assert|]. intros _.
  destruct (m_body m) as [| | |[|p0 [|p1 [|]]]]; try constructor. apply allowed_bind.
  { destruct (m_body p1) as [|t|t|]; try constructor; (destruct (is_ascii t); constructor). }
  intros enc. apply allowed_bind; [apply inc_get_bingpg|]. intros g. apply allowed_bind; [|intros [d i]; constructor].
  unfold gpg_decrypt, version_known. cbv zeta. apply allowed_bind; [apply allowed_lift|intros v]. apply allowed_bind; [apply inc_outerr; constructor; apply nopass_args|]. intros [o e]. apply allowed_bind; [apply allowed_lift|]. intros; constructor.
Qed.
Lemma inc_process_incoming a m ign nd : inc (process_incoming a m ign nd).
Proof.
  unfold process_incoming. cbv zeta. apply allowed_bind; [apply allowed_lift|]. intros d.
  apply allowed_bind; [unfold effective_date; apply allowed_bind; [apply allowed_perform; exact I|intros; constructor]|]. intros date.
  apply allowed_bind; [apply allowed_perform; exact I|]. intros l. destruct (ign && _); [constructor|].
  apply allowed_bind.
  { unfold process_autocrypt_header. apply allowed_bind; [apply allowed_lift|]. intros p.
    apply allowed_bind; [destruct (has_error p); [constructor|apply inc_import_key]|]. intros [kh p'].
    apply allowed_bind; [apply inc_update|]. intros; constructor. }
  intros p. apply allowed_bind; [destruct nd; [constructor|apply allowed_lift]|]. intros enc.
  apply allowed_bind; [|intros; constructor]. destruct enc; [|constructor].
  apply allowed_bind; [apply inc_decrypt_mime|]. intros [dm infos]. apply allowed_bind.
  { unfold process_gossip_headers. apply allowed_bind; [apply allowed_lift|]. intros pahs. apply allowed_bind; [|intros; constructor].
    apply allowed_foldM. intros [ap pr] r _. unfold gossip_recipient. destruct (dget ap r) as [q|]; [|constructor].
    apply allowed_bind; [apply inc_import_key|]. intros [kh q']. apply allowed_bind; [apply inc_update_gossip|]. intros; constructor. }
  intros gp. apply allowed_bind; [apply inc_own_keyhandle|]. intros; constructor.
Qed.
Lemma inc_ensure_init : inc ensure_init.
Proof.
  unfold ensure_init, mgr_version, set_version.
  incs.
Qed.
Lemma inc_get_account n b : inc (get_account n b).
Proof.
  unfold get_account, account_exists. apply allowed_bind; [apply inc_ensure_init|]. intros _.
  incs.
Qed.
Lemma inc_account_loop names x : inc (account_loop names x).
Proof.
  induction names as [|n names IH]; cbn [account_loop]; [constructor|]. apply allowed_bind; [apply inc_get_account|]. intros b.
  apply allowed_bind; [apply inc_own_config|]. intros c. apply allowed_bind; [apply allowed_lift|]. intros []; [constructor|exact IH].
Qed.
Lemma inc_list_names : inc list_account_names.
Proof. unfold list_account_names, get_account_names. apply allowed_bind; [apply allowed_perform; exact I|]. intros; constructor. Qed.
Lemma inc_from_emailadr x b : inc (get_account_from_emailadr x b).
Proof.
  unfold get_account_from_emailadr. apply allowed_bind; [apply inc_list_names|]. intros ns.
  apply allowed_bind; [apply inc_account_loop|]. intros [r|]; [constructor|]. destruct b; constructor.
Qed.
Lemma inc_matching m : inc (get_matching_account m).
Proof.
  unfold get_matching_account. apply allowed_bind; [apply inc_list_names|]. intros ns. apply allowed_bind.
  { apply allowed_mapM. intros n _. apply allowed_bind; [apply inc_get_account|]. intros b. apply allowed_bind; [apply inc_own_config|]. intros; constructor. }
  intros l. apply allowed_bind; [apply allowed_lift|]. intros [r|]; [constructor|].
  apply allowed_bind; [apply allowed_lift|]. intros dt. apply allowed_bind; [apply inc_from_emailadr|]. intros [r|]; constructor.
Qed.
Lemma inc_scan_one r now f : inc (scan_one r now f).
Proof.
  destruct f as [mt m]. unfold scan_one. destruct (is_too_old now mt); [constructor|]. destruct (hget m (L "message-id")); [|constructor].
  apply allowed_bind; [apply allowed_lift|]. intros d.
  apply allowed_bind; [unfold effective_date; apply allowed_bind; [apply allowed_perform; exact I|intros; constructor]|]. intros date.
  destruct (is_too_old now date); [constructor|]. apply allowed_bind.
  { apply allowed_catch; [apply allowed_bind; [apply inc_matching|intros; constructor]|].
    intros e q. destruct e; try discriminate; intros [= <-]; constructor. }
  intros [a|]; [|constructor]. apply allowed_bind.
  { apply allowed_catch; [apply allowed_bind; [apply inc_process_incoming|intros; constructor]|].
    intros e q. destruct e; try discriminate; intros [= <-]; constructor. }
  intros [[i|]|]; [|constructor..]. destruct (has_error _); [constructor|].
  apply allowed_bind; [apply allowed_perform; exact I|]. intros; constructor.
Qed.
Lemma inc_exec c : mail_call_only c = true -> inc (exec c).
Proof.
  destruct c; try discriminate; intros _; cbn [exec].
  - unfold with_account. apply allowed_bind; [apply inc_get_account|]. intros a. apply allowed_bind; [apply inc_process_incoming|]. intros; constructor.
  - apply allowed_bind; [|intros; constructor]. unfold cli_process_incoming.
    apply allowed_bind; [destruct name; [apply inc_get_account|apply inc_matching]|]. intros a.
    apply allowed_bind; [apply inc_process_incoming|]. intros [i|]; [|constructor].
    apply allowed_bind; [apply allowed_perform; exact I|]. intros; constructor.
  - apply allowed_bind; [|intros; constructor]. unfold cli_scandir. apply allowed_bind; [apply allowed_perform; exact I|]. intros now.
    apply allowed_mapM. intros f _. apply inc_scan_one.
Qed.
Lemma inc_trace {A} (p : prog cop A) s : inc p ->
  exists new, a_trace (fst (arun p s)) = new ++ a_trace s /\ Forall mail_usage new.
Proof.
  intros Hp. unfold arun.
  refine (run_allowed_inv (@astep E) inc_op (fun s' => exists new, a_trace s' = new ++ a_trace s /\ Forall mail_usage new) p _ Hp s _).
  - intros X o s' Ho [l [H1 H2]]. destruct o; try destruct Ho; cbn [astep fst]; try (exists l; split; assumption).
    destruct (gpg _ _ _ _) as [r' res]. cbn [fst a_trace]. eexists (_ :: l). rewrite H1. split; [reflexivity|]. constructor; [|exact H2].
    exists x. exact H.
  - exists []. auto.
Qed.
Theorem c55_mail : forall s c g, mail_call_only c = true -> ran s (after s c) g -> mail_usage g.
Proof.
  intros s c g Hc [l [Ht Hi]]. destruct (inc_trace (exec c) s (inc_exec c Hc)) as [new [H1 H2]].
  unfold after in Ht. rewrite H1 in Ht. apply app_inv_tail in Ht. subst l. rewrite Forall_forall in H2. auto.
Qed.

(** what encrypt_mime hands to gpg *)
Lemma encrypt_mime_trace s s' a m to em khs : WF s -> exists_acct s a ->
  arun (encrypt_mime a m to) s = (s', Ok (em, khs)) ->
  exists c own data home argv, own_of s a = Some (c, own) /\
    Forall2 (fun x => key_in_use s a (norm x)) to khs /\ encrypt_command argv khs own /\
    a_trace s' = GCall home argv (Some data) None :: a_trace s.
Proof.
  intros Hw He H. destruct (exists_own s a Hw He) as [c [own Ho]].
  destruct (encrypt_mime_ok s s' a m to em khs own c Hw Ho H) as [_ [K _]].
  unfold encrypt_mime in H. apply arun_bind_ok in H as [s1 [[] [H1 H]]]. apply arun_assert_ok in H1 as [-> _].
  apply arun_bind_ok in H as [s1 [[khs0 clear] [H1 H]]].
  apply encrypt_recipients_ok in H1 as [-> _]; auto.
  apply arun_bind_ok in H as [s1 [own' [H1 H]]]. apply own_keyhandle_ok in H1 as [-> [k [Hk ->]]].
  apply arun_bind_ok in H as [s1 [data [H1 H]]]. apply arun_lift_ok in H1 as [-> Hd].
  apply arun_bind_ok in H as [s1 [g [H1 H]]]. apply get_bingpg_ok in H1 as ->.
  apply arun_bind_ok in H as [s1 [enc [H1 H]]].
  cbv zeta in H. apply arun_ret_ok in H as [-> H]. injection H as _ ->.
  unfold gpg_encrypt, version_known in H1. apply arun_bind_ok in H1 as [sv [v [Hv H1]]]. apply arun_lift_ok in Hv as [-> _].
  apply arun_bind_ok in H1 as [s2 [[out err] [H1 H]]].
  apply arun_ret_ok in H as [-> ->]. apply gpg_outerr_ok in H1 as [_ [G2 _]].
  assert (Hown : kg_kh k = own).
  { rewrite own_of_spec in Ho by exact Hw. destruct (config_of s a); [|discriminate]. rewrite Hk in Ho. injection Ho as _ <-. reflexivity. }
  rewrite Hown in *. exists c, own, data. eexists _, _. split; [exact Ho|]. split; [exact K|]. split; [|exact G2].
  apply encrypt_argv_command.
Qed.
Theorem c55_encrypt : forall s a m to em khs g, reachable s -> answer s (AEncrypt a m to) = Ok (OEncrypted em khs) ->
  ran s (after s (AEncrypt a m to)) g ->
  Forall2 (fun x => key_in_use s a (norm x)) to khs /\
  exists c own data, own_of s a = Some (c, own) /\ encrypt_command (gc_argv g) khs own /\ gc_in g = Some data /\ gc_tmp g = None.
Proof.
  intros s a m to em khs g Hr H [l [Ht Hi]]. apply answer_encrypt in H as [He H]; [|exact Hr].
  apply encrypt_mime_trace in H as [c [own [data [home [argv [Ho [K [Hc Htr]]]]]]]]; auto using reachable_WF.
  split; [exact K|]. exists c, own, data. split; [exact Ho|].
  rewrite Htr in Ht. change (GCall home argv (Some data) None :: a_trace s) with ([GCall home argv (Some data) None] ++ a_trace s) in Ht.
  apply app_inv_tail in Ht. subst l. destruct Hi as [<-|[]]. auto.
Qed.

(** ** C56 *)
Lemma incoming_date s a m ign nd i : reachable s -> answer s (AIncoming a m ign nd) = Ok (OIncoming (Some i)) ->
  exists d, dated m d /\ in_date i = Z.min d (clock (a_tick s)).
Proof.
  intros Hr H. pose proof (reachable_WF s Hr) as Hw. destruct (exists_acct_dec s a) as [He|He].
  - destruct (answer_incoming s a m ign nd Hw He) as [_ Ha]. rewrite Ha in H.
    destruct (incoming_effect a m ign nd s Hw He) as [e Hl Hx|Hl Hx Hi Hm|d p s1 kh p' ls Hd Hp Hi Hl1 Hn Hpath HF Hx].
    + rewrite Hx in H. discriminate.
    + rewrite Hx in H. discriminate.
    + exists d. split; [exact Hd|]. destruct Hx as [[e Hx]|[g Hx]]; rewrite Hx in H; [discriminate|]. injection H as <-. reflexivity.
  - unfold answer in H. cbn [exec] in H. rewrite arun_with_account_none in H by auto. discriminate.
Qed.
Theorem c56_same_zone : forall s1 s2 a1 a2 m1 m2 g1 g2 n1 n2 i1 i2 d1 d2 c1 c2 o,
  (forall x y t u, (x <= y)%Z -> mktime x = Ok t -> mktime y = Ok u -> (t <= u)%Z) -> (forall x, mktime x <> Err TypeError) ->
  reachable s1 -> reachable s2 -> (clock (a_tick s1) <= clock (a_tick s2))%Z ->
  answer s1 (AIncoming a1 m1 g1 n1) = Ok (OIncoming (Some i1)) -> answer s2 (AIncoming a2 m2 g2 n2) = Ok (OIncoming (Some i2)) ->
  hget m1 (L "Date") = Some d1 -> hget m2 (L "Date") = Some d2 ->
  parsedate_tz d1 = Some (c1, o) -> parsedate_tz d2 = Some (c2, o) -> (c1 <= c2)%Z ->
  (in_date i1 <= in_date i2)%Z.
Proof.
  intros s1 s2 a1 a2 m1 m2 g1 g2 n1 n2 i1 i2 d1 d2 c1 c2 o Hm Ht R1 R2 Hc A1 A2 D1 D2 P1 P2 Hle.
  apply incoming_date in A1 as [t1 [T1 ->]]; [|exact R1]. apply incoming_date in A2 as [t2 [T2 ->]]; [|exact R2].
  unfold dated in T1, T2. rewrite D1 in T1. rewrite D2 in T2. cbn [parse_date_to_float] in T1, T2.
  unfold parsedate in T1, T2. rewrite P1 in T1. rewrite P2 in T2. cbn [option_map fst] in T1, T2.
  assert (H1 : mktime c1 = Ok t1) by (specialize (Ht c1); destruct (mktime c1) as [|[]]; congruence).
  assert (H2 : mktime c2 = Ok t2) by (specialize (Ht c2); destruct (mktime c2) as [|[]]; congruence).
  pose proof (Hm c1 c2 t1 t2 Hle H1 H2). lia.
Qed.

(** ** C59 *)
Theorem c59_resent : forall s m r, hget m (L "Resent-From") = Some r -> r <> [] ->
  after s (ACliOutgoing m) = after s (AFind (norm r) false) /\
  (forall a, answer s (AFind (norm r) false) = Ok (OOptText (Some a)) -> answer s (ACliOutgoing m) = Ok (OMsg m)) /\
  (answer s (AFind (norm r) false) = Ok (OOptText None) -> answer s (ACliOutgoing m) = Err ClickException) /\
  (forall e, answer s (AFind (norm r) false) = Err e -> answer s (ACliOutgoing m) = Err e) /\
  ((exists a, answer s (AFind (norm r) false) = Ok (OOptText a)) \/ exists e, answer s (AFind (norm r) false) = Err e).
Proof.
  intros s m r Hg Hn. unfold after, answer. cbn [exec]. unfold cli_process_outgoing. rewrite Hg. cbv zeta.
  apply nonempty_true in Hn. rewrite Hn. rewrite !arun_bind. change (parse_email_addr (Some r)) with (norm r).
  destruct (arun (get_account_from_emailadr (norm r) false) s) as [s' [[a|]|e]]; cbn [fst snd];
    (split; [reflexivity|]); cbn; (split; [intros ? [= ]; auto|]); (split; [intros [= ]; auto|]);
    (split; [intros ? [= <-]; reflexivity|]); eauto.
Qed.

(** ** C53 *)
Lemma from_emailadr_ok2 adr b s s' a : WF s -> arun (get_account_from_emailadr adr b) s = (s', Ok (Some a)) -> s' = s /\ exists_acct s a.
Proof.
  intros Hw H. unfold get_account_from_emailadr in H. apply arun_bind_ok in H as [s1 [names [H1 H]]].
  assert (Hs : s1 = s).
  { unfold list_account_names, get_account_names in H1. apply arun_bind_ok in H1 as [s2 [ks [H1 H2]]].
    unfold arun in H1. cbn in H1. injection H1 as <- <-. apply arun_ret_ok in H2 as [-> _]. reflexivity. }
  subst s1. clear H1. apply arun_bind_ok in H as [s1 [r [H1 H]]]. destruct r as [x|]; [|destruct b; discriminate].
  apply arun_ret_ok in H as [-> [= ->]]. eapply account_loop_ok; eauto.
Qed.
Lemma matching_ok m s s' a : WF s -> arun (get_matching_account m) s = (s', Ok a) -> s' = s /\ exists_acct s a.
Proof.
  intros Hw H. unfold get_matching_account in H. apply arun_bind_ok in H as [s1 [names [H1 H]]].
  assert (Hs : s1 = s).
  { unfold list_account_names, get_account_names in H1. apply arun_bind_ok in H1 as [s2 [ks [H1 H2]]].
    unfold arun in H1. cbn in H1. injection H1 as <- <-. apply arun_ret_ok in H2 as [-> _]. reflexivity. }
  subst s1. clear H1. apply arun_bind_ok in H as [s1 [l [H1 H]]].
  assert (Hl : s1 = s /\ Forall (fun p => exists_acct s (snd p)) l).
  { clear H. revert l s1 H1. induction names as [|n names IH]; intros l s1 H1; cbn [mapM] in H1.
    - apply arun_ret_ok in H1 as [-> ->]. auto.
    - apply arun_bind_ok in H1 as [s2 [y [H1 H2]]].
      apply arun_bind_ok in H1 as [s3 [b [H1 H3]]]. apply get_account_ok in H1 as [-> [-> He]]; [|exact Hw].
      apply arun_bind_ok in H3 as [s3 [c [H1 H3]]]. apply own_config_ok in H1 as [-> _].
      apply arun_ret_ok in H3 as [-> ->].
      apply arun_bind_ok in H2 as [s3 [ys [H1 H2]]]. apply IH in H1 as [-> HF]. apply arun_ret_ok in H2 as [-> ->].
      split; [reflexivity|]. constructor; auto. }
  destruct Hl as [-> HF]. clear H1. apply arun_bind_ok in H as [s1 [r [H1 H]]]. apply arun_lift_ok in H1 as [-> H1].
  destruct r as [b|].
  - apply arun_ret_ok in H as [-> ->]. split; [reflexivity|].
    assert (Hf : forall l0 x b0, Forall (fun p => exists_acct s (snd p)) l0 -> first_match l0 x = Ok (Some b0) -> exists_acct s b0).
    { clear. intros l0 x b0 HF. induction HF as [|[re y] l0 Hy HF IH]; cbn [first_match]; [discriminate|].
      destruct (re_match re (lower x)) as [[]|]; cbn [rbind]; [|exact IH|discriminate]. intros [= <-]. exact Hy. }
    clear - H1 HF Hf. induction (get_target_emailadr m) as [|x xs IH]; cbn [match_addrs] in H1; [discriminate|].
    destruct (first_match l x) as [[c|]|] eqn:Ef; cbn [rbind] in H1; [|auto|discriminate].
    injection H1 as <-. eapply Hf; eauto.
  - apply arun_bind_ok in H as [s1 [d [H2 H]]]. apply arun_lift_ok in H2 as [-> _].
    apply arun_bind_ok in H as [s1 [[x|] [H2 H]]]; [|discriminate]. apply arun_ret_ok in H as [-> ->].
    apply from_emailadr_ok2 in H2; auto.
Qed.
Lemma route_ok s m a : WF s -> answer s (ARoute m) = Ok (OText a) -> exists_acct s a /\ arun (get_matching_account m) s = (s, Ok a).
Proof.
  intros Hr H. unfold answer in H. cbn [exec] in H. rewrite arun_bind in H.
  destruct (arun (get_matching_account m) s) as [s1 [b|]] eqn:Em; [|discriminate]. cbn in H. injection H as ->.
  destruct (matching_ok _ _ _ _ Hr Em) as [-> He]. auto.
Qed.

Lemma incoming_some s a m ign nd i : WF s -> exists_acct s a -> snd (arun (process_incoming a m ign nd) s) = Ok (Some i) ->
  in_acct i = a /\ in_chain i = peer_chain a (sender_of m).
Proof.
  intros Hw He H. destruct (incoming_effect a m ign nd s Hw He) as [e Hl Hx|Hl Hx Hi Hm|d p s1 kh p' ls Hd Hp Hi Hl1 Hn Hpath HF Hx].
  - congruence.
  - congruence.
  - destruct Hx as [[e Hx]|[g Hx]]; rewrite Hx in H; [discriminate|]. injection H as <-. split; reflexivity.
Qed.
Lemma incoming_exists s a m ign nd : WF s -> exists_acct s a -> exists_acct (after s (AIncoming a m ign nd)) a.
Proof. intros Hw He. apply after_exists; auto. Qed.

Theorem c53_found : forall s name reparse nd m r, reachable s -> answer s (ACliIncoming name reparse nd m) = Ok (OCliIncoming r) ->
  exists a, (name = Some a \/ (name = None /\ answer s (ARoute m) = Ok (OText a))) /\
    after s (ACliIncoming name reparse nd m) = after s (AIncoming a m (negb reparse) nd) /\
    match r with
    | None => answer s (AIncoming a m (negb reparse) nd) = Ok (OIncoming None)
    | Some (b, found) => b = a /\ exists i v, answer s (AIncoming a m (negb reparse) nd) = Ok (OIncoming (Some i)) /\
        peer_of (after s (AIncoming a m (negb reparse) nd)) a (from_addr m) = Some v /\ found = up_to_date v
    end.
Proof.
  intros s name reparse nd m r Hr H. pose proof (reachable_WF s Hr) as Hw. unfold answer in H. cbn [exec] in H.
  destruct (arun (x <- cli_process_incoming name reparse nd m ;; Ret (OCliIncoming x)) s) as [s' r'] eqn:Er.
  assert (Haft : after s (ACliIncoming name reparse nd m) = s') by (unfold after; cbn [exec]; rewrite Er; reflexivity).
  cbn [snd] in H. subst r'. apply arun_bind_ok in Er as [s1 [x [H1 H2]]]. apply arun_ret_ok in H2 as [-> [= ->]].
  unfold cli_process_incoming in H1. apply arun_bind_ok in H1 as [s2 [a [H1 H2]]].
  assert (Ha : s2 = s /\ exists_acct s a /\ (name = Some a \/ (name = None /\ answer s (ARoute m) = Ok (OText a)))).
  { destruct name as [n|].
    - apply get_account_ok in H1 as [-> [-> He]]; auto.
    - assert (H3 := H1). apply matching_ok in H1 as [-> He]; [|exact Hw]. split; [reflexivity|]. split; [exact He|]. right. split; [reflexivity|].
      unfold answer. cbn [exec]. rewrite arun_bind, H3. reflexivity. }
  destruct Ha as [-> [He Hname]]. exists a. split; [exact Hname|].
  destruct (answer_incoming s a m (negb reparse) nd Hw He) as [A1 A2].
  apply arun_bind_ok in H2 as [s2 [oi [H2 H3]]]. rewrite H2 in A1, A2. cbn [fst snd] in A1, A2.
  assert (Hi := incoming_some s a m (negb reparse) nd). rewrite H2 in Hi. cbn [snd] in Hi.
  destruct oi as [i|].
  - destruct (Hi i Hw He eq_refl) as [Hi1 Hi2]. rewrite Hi1, Hi2 in H3.
    apply arun_bind_ok in H3 as [s3 [l [H3 H4]]]. apply arun_ret_ok in H4 as [-> ->].
    unfold arun in H3. cbn in H3. injection H3 as <- <-. rewrite Haft, A1. split; [reflexivity|]. split; [reflexivity|].
    exists i. eexists. split; [exact A2|].
    assert (Hw2 : WF s2) by (rewrite <- A1; apply WF_after; exact Hw).
    assert (He2 : exists_acct s2 a) by (rewrite <- A1; apply incoming_exists; auto).
    rewrite peer_of_spec by auto. split; [reflexivity|].
    unfold up_to_date. cbn [view_of pv_last_seen pv_ac_timestamp]. rewrite Z.eqb_sym. reflexivity.
  - apply arun_ret_ok in H3 as [-> ->]. rewrite Haft, A1. split; [reflexivity|exact A2].
Qed.

(** a key handle found in the output of gpg is not empty *)
Lemma find_keyhandle_nonempty g err s s' kh : arun (find_keyhandle g err) s = (s', Ok kh) -> kh <> [].
Proof.
  unfold find_keyhandle. destruct (search_key err) as [x|] eqn:Es; [|discriminate]. apply search_key_hex in Es as [Hx Hh].
  destruct (Nat.leb (length x) 8).
  - intros H. apply arun_bind_ok in H as [s1 [l [_ H]]]. destruct (find (fun k => ki_match (ki_id k) x) l) as [k|] eqn:Ef; [|discriminate].
    apply arun_ret_ok in H as [_ ->]. apply find_some in Ef as [_ Ef]. intros Hk. rewrite Hk in Ef.
    apply match_empty in Ef; [|auto]. rewrite (lower_ascii x) in Ef.
    + destruct x; [congruence|]. discriminate Ef.
    + unfold is_ascii. apply forallb_forall. rewrite Forall_forall in Hh. intros c Hc. apply Hh in Hc. apply N.ltb_lt. lia.
  - intros H. apply arun_ret_ok in H as [_ ->]. exact Hx.
Qed.
Lemma import_run_nonempty a p s s' kh p' : import_run a p s = (s', Ok (Some kh, p')) -> kh <> [].
Proof.
  unfold import_run. destruct (has_error p); [discriminate|]. unfold import_key. intros H. apply arun_bind_ok in H as [s1 [g [_ H]]].
  destruct (p_keydata p) as [kd|]; [|discriminate]. rewrite arun_catch, arun_bind in H.
  destruct (arun (import_keydata g kd false) s1) as [s2 [h|e]] eqn:Ei.
  - cbn in H. injection H as _ -> _. unfold import_keydata in Ei. apply arun_bind_ok in Ei as [s3 [[o er] [_ Ei]]].
    apply arun_bind_ok in Ei as [s4 [k [H1 H2]]]. apply arun_ret_ok in H2 as [_ ->]. eapply find_keyhandle_nonempty; eauto.
  - destruct e; discriminate.
Qed.

Lemma decide_fresh l id d p kd kh pref : peer_ok l -> (last_seen l < d)%Z ->
  (kd = None \/ exists k, kd = Some k /\ pref = Some p /\ valid_pref p = true) -> (forall h, kh = Some h -> h <> []) ->
  (ts_of (decide_msgs l id d pref kd kh) = seen_of (decide_msgs l id d pref kd kh) <-> exists k, kd = Some k /\ k <> []).
Proof.
  intros Hok Hlt Hkd Hkh. pose proof (peer_ok_seen l Hok) as Hts. unfold decide_msgs, msg_decide.
  destruct (Z.ltb_spec d (autocrypt_timestamp l)) as [Hb|_]; [lia|]. cbv zeta.
  destruct (match get_message_entry l id with Some _ => _ | None => _ end) eqn:Edup.
  { exfalso. destruct (get_message_entry l id) as [e|] eqn:Eg; [|discriminate].
    apply get_message_In in Eg as [Hi _]. apply andb_prop in Edup as [Edup _]. apply andb_prop in Edup as [Edup E3].
    apply andb_prop in Edup as [E1 E2]. apply Z.eqb_eq in E1.
    destruct kh as [h|]; [|discriminate E3]. destruct kd as [k|]; [|discriminate E2].
    cbn [eq_opt] in E2, E3. apply text_eqb_eq in E2, E3.
    destruct (nonempty (me_keydata e)) eqn:En.
    - pose proof (peer_ok_ac_max l e Hok Hi En). lia.
    - assert (Hn : me_kh e = []).
      { clear - Hok Hi En. induction Hok as [|t id d p kd kh l Hok IH Hts Hkd Hp|t id d l Hok IH Hts Hls|t id d kd kh l Hok IH Hts Hkd].
        - destruct Hi.
        - destruct Hi as [<-|Hi]; [cbn in En; congruence|auto].
        - destruct Hi as [<-|Hi]; [reflexivity|auto].
        - auto. }
      apply (Hkh h); [reflexivity|congruence]. }
  destruct kd as [[|c k]|]; cbn [nonempty negb].
  - destruct (Z.ltb_spec (last_seen l) d) as [_|Hb]; [|lia].
    split; [|intros [k [[= <-] Hk]]; congruence].
    change (ts_of (MsgEntry id d (L "nopreference") [] [] :: msg_entries l) = d -> exists k, @Some bytes [] = Some k /\ k <> []).
    change (ts_of (MsgEntry id d (L "nopreference") [] [] :: msg_entries l)) with (autocrypt_timestamp l). lia.
  - destruct Hkd as [Hkd|[k' [_ [-> Hv]]]]; [discriminate|]. unfold mk_msg_entry. rewrite Hv.
    split; [intros _; exists (c :: k); split; [reflexivity|discriminate]|reflexivity].
  - destruct (Z.ltb_spec (last_seen l) d) as [_|Hb]; [|lia].
    split; [|intros [k [Hk _]]; discriminate].
    change (ts_of (MsgEntry id d (L "nopreference") [] [] :: msg_entries l) = d -> exists k, @None bytes = Some k /\ k <> []).
    change (ts_of (MsgEntry id d (L "nopreference") [] [] :: msg_entries l)) with (autocrypt_timestamp l). lia.
Qed.

Theorem c53_new_mail : forall s name reparse nd m a found v d, reachable s ->
  answer s (ACliIncoming name reparse nd m) = Ok (OCliIncoming (Some (a, found))) ->
  peer_of s a (from_addr m) = Some v -> dated m d -> (pv_last_seen v < Z.min d (clock (a_tick s)))%Z ->
  (found = true <-> exists key pref, key <> [] /\ carries m key pref).
Proof.
  intros s name reparse nd m a found v d Hr H Hv Hd Hlt. pose proof (reachable_WF s Hr) as Hw.
  destruct (c53_found s name reparse nd m _ Hr H) as [a' [_ [_ [<- [i [v' [Ha [Hv' ->]]]]]]]].
  apply peer_of_some in Hv as [He ->]; [|exact Hw].
  apply peer_of_some in Hv' as [_ ->]; [|apply WF_after; exact Hw]. fold (sender_of m) in *.
  destruct (answer_incoming s a m (negb reparse) nd Hw He) as [A1 A2]. rewrite A1. rewrite A2 in Ha. clear A1 A2.
  unfold up_to_date. cbn [view_of pv_last_seen pv_ac_timestamp] in Hlt |- *. rewrite Z.eqb_eq, seen_of_log, ts_of_log.
  assert (Hok : peer_ok (peer_log s a (sender_of m))) by (apply (wf_peer s Hw)).
 
  pose proof (exists_isalnum s a Hw He) as Hal.
  destruct (incoming_effect a m (negb reparse) nd s Hw He) as [e Hl Hx|Hl Hx Hi Hm|d0 p s1 kh p' ls Hd0 Hp Hi Hl1 Hn Hpath HF Hx].
  - rewrite Hx in Ha. discriminate.
  - rewrite Hx in Ha. discriminate.
  - assert (d0 = d) by (unfold dated in *; congruence). subst d0.
    rewrite (gossip_path_msgs _ _ _ _ _ _ _ Hpath HF a (sender_of m) Hal).
    destruct (step_msg_log s1 a (sender_of m) (msg_id_text m) (Z.min d (clock (a_tick s))) (p_pref p) (p_keydata p) kh (sender_of m)) as [-> _].
    rewrite text_eqb_refl, (logs_peer s s1) by exact Hl1.
    assert (Hkh : forall h, kh = Some h -> h <> []) by (intros h ->; eapply import_run_nonempty; eauto).
    destruct (parse_carries m p Hp) as [[Hf Hf2]|[key [pref [extra [-> [Hval Hc]]]]]].
    + rewrite Hf. split.
      * intros Hs. symmetry in Hs. apply (decide_fresh _ _ _ []) in Hs; auto. destruct Hs as [k [Hk _]]. discriminate.
      * intros [key [pref [_ Hc]]]. apply carries_parse in Hc as [_ [extra Hc]]. rewrite Hp in Hc. injection Hc as ->. discriminate.
    + cbn [p_keydata p_pref]. split.
      * intros Hs. symmetry in Hs. apply (decide_fresh _ _ _ pref) in Hs; auto; [|right; exists key; auto].
        destruct Hs as [k [[= <-] Hk]]. exists key, pref. auto.
      * intros [k2 [p2 [Hk2 Hc2]]]. destruct (carries_unique _ _ _ _ _ Hc Hc2) as [-> ->]. symmetry.
        apply (decide_fresh _ _ _ p2); auto; [right; exists k2; auto|]. exists k2. auto.
Qed.

Lemma peer_ok_last_ac l e : peer_ok l -> last_seen l = autocrypt_timestamp l -> latest_ac_entry l = Some e -> latest_msg_entry l = Some e.
Proof.
  intros Hok. induction Hok as [|t id d p kd kh l Hok IH Hts Hkd Hp|t id d l Hok IH Hts Hls|t id d kd kh l Hok IH Hts Hkd].
  - discriminate.
  - intros _. unfold latest_ac_entry, latest_msg_entry. cbn. rewrite Hkd. auto.
  - pose proof (peer_ok_seen l Hok).
    change (autocrypt_timestamp (Block t (EMsg (MsgEntry id d (L "nopreference") [] [])) :: l)) with (autocrypt_timestamp l).
    change (last_seen (Block t (EMsg (MsgEntry id d (L "nopreference") [] [])) :: l)) with d. lia.
  - intros H1 H2. exact (IH H1 H2).
Qed.
Theorem c53_peerstate : forall s a x o, reachable s -> answer s (ACliPeerstate a x) = Ok (OPeerstate o) ->
  exists v, peer_of s a x = Some v /\
    (po_addr o, po_kh o, po_direct o, po_pref o, po_last_seen o, po_ac_timestamp o) =
    (pv_addr v, pv_keyhandle v, pv_direct v, pv_pref v, pv_last_seen v, pv_ac_timestamp v) /\
    (up_to_date v = true -> forall e, pv_latest_ac v = Some e -> po_last_ac_msg o = me_id e).
Proof.
  intros s a x o Hr H. pose proof (reachable_WF s Hr) as Hw. unfold answer in H. cbn [exec] in H.
  destruct (exists_acct_dec s a) as [He|He].
  - unfold cli_peerstate in H. rewrite arun_bind, arun_bind, arun_get_account in H by auto. cbn in H. injection H as <-.
    rewrite peer_of_spec by auto. eexists. split; [reflexivity|]. split; [reflexivity|].
    cbn [po_last_ac_msg view_of pv_latest_ac]. unfold up_to_date. cbn [view_of pv_last_seen pv_ac_timestamp]. rewrite Z.eqb_eq.
    intros Hu e Hl. change (peerstate_chain a x) with (peer_chain a (norm x)). fold (peer_log s a (norm x)).
    unfold latest_msg_id. rewrite (peer_ok_last_ac _ e); auto. apply (wf_peer s Hw).
  - unfold cli_peerstate in H. rewrite arun_bind, arun_bind in H.
    pose proof (arun_get_account_none s a He) as Hx. destruct (arun (get_account a true) s) as [s1 [b|]]; [|discriminate].
    discriminate Hx.
Qed.
End Cli2.
