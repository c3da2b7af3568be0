(** Proofs about decryption and what gpg reports (C69). *)
From Verif Require Import Base PyStr Utf8 Base64 Env Prog Chain Gpg Mime States Recommendation Account Cmdline Bot Fs Api Steps StepFacts Exec ApiScope
  Spec Obs PeerSpec Incoming PeerFacts PeerProofs RecSpec RecProofs HeaderProofs OutSpec OutProofs OutProofs2 AcctSpec AcctFacts AcctProofs AcctProofs2
  ImportProofs CliSpec CliProofs CliProofs2 Commands CmdSpec CmdProofs GpgSpec GpgText ProgProofs VersionProofs.

Section GpgProofs.
Context {E : Env}.

(** one call of gpg *)
Definition call_result (res : gres) (strict dec : bool) : result (list N * text) :=
  if Z.eqb (g_ret res) 130 then Err KeyboardInterrupt
  else match utf8 (g_err res) with
       | None => Err UnicodeError
       | Some err =>
         match (if dec then utf8 (g_out res) else Some (g_out res)) with
         | None => Err UnicodeError
         | Some out => if negb (Z.eqb (g_ret res) 0) || (strict && nonempty err) then Err InvocationFailure else Ok (out, err)
         end
       end.
Lemma arun_outerr g argv inp strict dec s :
  exists s', arun (gpg_outerr g argv inp None strict dec) s = (s', call_result (gpg_now s (full_argv g argv) inp) strict dec) /\
    a_trace s' = [GCall (argv_home (full_argv g argv)) (full_argv g argv) inp None] ++ a_trace s /\ a_logs s' = a_logs s.
Proof.
  unfold gpg_outerr, gpg_now, full_argv, call_result. set (full := [gp_path g; L "--batch"] ++ homedirflags g ++ argv).
  rewrite arun_bind. unfold arun at 1. cbn [perform run astep]. destruct (gpg (ring_at (a_rings s) (argv_home full)) full inp None) as [r' res]. cbn [snd].
  eexists. split.
  - destruct (Z.eqb (g_ret res) 130); [reflexivity|]. destruct (utf8 (g_err res)); [|reflexivity].
    destruct (if dec then utf8 (g_out res) else Some (g_out res)); [|reflexivity].
    destruct (negb (Z.eqb (g_ret res) 0) || (strict && nonempty t)); reflexivity.
  - cbn [a_trace a_logs]. auto.
Qed.

Definition dec_argv (g : bingpg) : list text := full_argv g (nopassphrase g ++ [L "--with-colons"; L "--decrypt"]).
Lemma arun_decrypt g data s b : isgpg21 (gp_path g) = Ok b ->
  exists s', arun (gpg_decrypt g data) s =
    (s', rbind (call_result (gpg_now s (dec_argv g) (Some data)) false false) (fun oe => rbind (enc_keyinfos (length (splitlines (snd oe))) None (splitlines (snd oe)))
           (fun infos => Ok (fst oe, infos)))) /\
    a_trace s' = [GCall (argv_home (dec_argv g)) (dec_argv g) (Some data) None] ++ a_trace s /\ a_logs s' = a_logs s.
Proof.
  intros Hb. unfold gpg_decrypt, version_known. rewrite Hb. rewrite arun_bind_lift, arun_bind. fold (dec_argv g).
  destruct (arun_outerr g (nopassphrase g ++ [L "--with-colons"; L "--decrypt"]) (Some data) false false s) as [s' [H1 H2]].
  rewrite H1. fold (dec_argv g) in *. exists s'. split; [|exact H2].
  destruct (call_result (gpg_now s (dec_argv g) (Some data)) false false) as [[o e]|e]; cbn [rbind]; [|reflexivity].
  rewrite arun_bind_lift. cbn [fst snd]. destruct (enc_keyinfos _ _ _); reflexivity.
Qed.
Lemma decrypt_version g data s s' r : arun (gpg_decrypt g data) s = (s', Ok r) -> exists b, isgpg21 (gp_path g) = Ok b.
Proof. unfold gpg_decrypt, version_known. rewrite arun_bind_lift. destruct (isgpg21 (gp_path g)); [eauto|discriminate]. Qed.

Lemma c69_keys : forall s a m dm infos, reachable s -> answer s (ADecrypt a m) = Ok (ODecrypted dm infos) ->
  exists enc argv err, cipher_of m = Some enc /\ decrypt_command argv /\
    a_trace (after s (ADecrypt a m)) = [GCall (argv_home argv) argv (Some enc) None] ++ a_trace s /\
    g_ret (gpg_now s argv (Some enc)) = 0%Z /\ dm = opened_as m (g_out (gpg_now s argv (Some enc))) /\
    utf8 (g_err (gpg_now s argv (Some enc))) = Some err /\ forall ks, reports (splitlines err) ks -> infos = ks.
Proof.
  intros s a m dm infos Hr. pose proof (reachable_WF s Hr) as Hw. unfold answer, after. cbn [exec].
  destruct (exists_acct_dec s a) as [He|He]; [|rewrite arun_with_account_none by auto; discriminate].
  rewrite arun_with_account by auto. rewrite arun_bind. destruct (arun (decrypt_mime a m) s) as [s1 [[d1 i1]|e]] eqn:Ed; cbn [snd fst]; [|discriminate].
  cbn. intros [= -> ->]. revert Ed. unfold decrypt_mime. intros H. apply arun_bind_ok in H as [s2 [b [H1 H]]]. apply arun_lift_ok in H1 as [-> Hb].
  apply arun_bind_ok in H as [s2 [[] [H1 H]]]. apply arun_assert_ok in H1 as [-> Hbt]. subst b.
  unfold cipher_of. destruct (m_body m) as [| | |[|p0 [|p1 [|]]]]; try discriminate.
  apply arun_bind_ok in H as [s2 [enc [H1 H]]].
  assert (Henc : s2 = s /\ (match m_body p1 with PBytes d | PStr d => Some d | _ => None end) = Some enc).
  { destruct (m_body p1) as [|t|d|l]; try discriminate.
    - destruct (is_ascii t); [|discriminate]. apply arun_ret_ok in H1 as [-> ->]. auto.
    - destruct (is_ascii d); [|discriminate]. apply arun_ret_ok in H1 as [-> ->]. auto. }
  destruct Henc as [-> Henc]. clear H1. apply arun_bind_ok in H as [s2 [g [H1 H]]]. apply get_bingpg_ok in H1 as ->.
  apply arun_bind_ok in H as [s2 [[dec inf] [H1 H]]]. apply arun_ret_ok in H as [-> [= -> ->]].
  destruct (decrypt_version _ _ _ _ _ H1) as [v Hv]. destruct (arun_decrypt g enc s v Hv) as [s3 [H2 [H3 _]]]. rewrite H2 in H1.
  injection H1 as -> H1. exists enc, (dec_argv g).
  unfold call_result in H1. destruct (Z.eqb _ 130); [discriminate H1|]. destruct (utf8 (g_err _)) as [err|]; [|discriminate H1]. exists err.
  split; [exact Henc|]. split; [apply decrypt_argv_command|]. split; [exact H3|].
  destruct (Z.eqb (g_ret _) 0) eqn:Hz; cbn [negb orb andb rbind fst snd] in H1; [|discriminate H1]. apply Z.eqb_eq in Hz.
  destruct (enc_keyinfos _ _ _) as [inf'|] eqn:Ei; [|discriminate]. cbn [rbind] in H1. injection H1 as -> ->.
  split; [exact Hz|]. split; [reflexivity|]. split; [reflexivity|]. intros ks Hk.
  rewrite (enc_keyinfos_reports _ _ Hk) in Ei by apply le_n. congruence.
Qed.

Lemma version_ge_nums v w : exists b, version_ge (map VNum v) (map VNum w) = Ok b.
Proof.
  revert w. induction v as [|x v IH]; intros [|y w]; cbn [map version_ge]; eauto. destruct (N.eqb x y); [apply IH|eauto].
Qed.
Lemma ready_bingpg s a : WF s -> exists_acct s a -> gpg_ready s a -> exists g b, arun (get_bingpg a) s = (s, Ok g) /\ isgpg21 (gp_path g) = Ok b.
Proof.
  intros Hw He [c [kh [p [v [Ho [Hb [Hp Hv]]]]]]]. apply located_found in Hp. apply told_version in Hv. destruct (wf_config s a c kh Hw Ho) as [Hc _].
  unfold get_bingpg. rewrite arun_bind, arun_own_config, Hc. destruct (cf_bin c) as [|b0 bs] eqn:Eb; [congruence|]. cbn [nonempty negb]. rewrite <- Eb in *.
  assert (Hwa : exists b, wants_agent_conf p = Ok b).
  { unfold wants_agent_conf. rewrite Hv. cbn [rbind]. destruct (version_ge_nums v [2%N; 0%N]) as [b1 H1]. cbn [map] in H1. rewrite H1. cbn [rbind]. destruct b1; [|eauto].
    destruct (version_ge_nums v [2%N; 1%N; 12%N]) as [b2 H2]. cbn [map] in H2. rewrite H2. cbn [rbind]. eauto. }
  assert (H21 : exists b, isgpg21 p = Ok b).
  { unfold isgpg21. rewrite Hv. cbn [rbind]. exact (version_ge_nums v [2%N; 1%N]). }
  destruct Hwa as [b1 H1], H21 as [b2 H2]. unfold mk_bingpg. rewrite Hp.
  assert (Hm : valid_mode (cf_mode c) = true).
  { assert (Hvc : valid_cfg c = true) by (apply (wf_valid s a c Hw Hc)). unfold valid_cfg in Hvc. apply andb_prop in Hvc. tauto. }
  destruct (text_eqb (cf_mode c) (L "own")) eqn:Eo.
  - rewrite H1. exists (BinGPG (Some (own_gpghome a)) p), b2. split; [reflexivity|exact H2].
  - unfold valid_mode in Hm. cbn [mem_text existsb] in Hm. rewrite Eo in Hm. destruct (text_eqb (cf_mode c) (L "system")) eqn:Es.
    + exists (BinGPG None p), b2. split; [reflexivity|exact H2].
    + discriminate Hm.
Qed.

Lemma c69_returns : forall s a m enc, reachable s -> gpg_ready s a -> is_encrypted m = Ok true -> cipher_of m = Some enc -> is_ascii enc = true ->
  (forall argv, decrypt_command argv -> g_ret (gpg_now s argv (Some enc)) = 0%Z /\
     exists err ks, utf8 (g_err (gpg_now s argv (Some enc))) = Some err /\ reports (splitlines err) ks) ->
  exists dm infos, answer s (ADecrypt a m) = Ok (ODecrypted dm infos).
Proof.
  intros s a m enc Hr Hg Hb Hc Ha Hok. pose proof (reachable_WF s Hr) as Hw.
  assert (He : exists_acct s a).
  { destruct Hg as [c [kh [p [v [Ho _]]]]]. exact (own_exists s a c kh Hw Ho). }
  destruct (ready_bingpg s a Hw He Hg) as [g [b [Hg1 Hg2]]].
  destruct (arun_decrypt g enc s b Hg2) as [s' [H1 _]].
  destruct (Hok (dec_argv g) (decrypt_argv_command g)) as [Hz [err [ks [Hu Hk]]]].
  unfold call_result in H1. rewrite Hz, Hu in H1. cbn [Z.eqb negb orb andb rbind fst snd] in H1.
  rewrite (enc_keyinfos_reports _ _ Hk) in H1 by apply le_n. cbn [rbind] in H1.
  unfold answer. cbn [exec]. rewrite arun_with_account by auto. rewrite arun_bind. unfold decrypt_mime. rewrite arun_bind_lift, Hb.
  rewrite arun_bind. cbn [assert_]. rewrite arun_ret. unfold cipher_of in Hc. destruct (m_body m) as [| | |[|p0 [|p1 [|]]]]; try discriminate.
  assert (Hm : arun (match m_body p1 with PBytes s0 | PStr s0 => if is_ascii s0 then Ret s0 else Raise UnicodeError | PNone | PParts _ => Raise AttributeError end) s
               = (s, Ok enc)).
  { destruct (m_body p1); try discriminate; injection Hc as ->; rewrite Ha; reflexivity. }
  rewrite arun_bind, Hm, arun_bind, Hg1, arun_bind, H1. eexists _, _. reflexivity.
Qed.
End GpgProofs.
