(** Failures of gpg are not overlooked (C74). *)
From Verif Require Import Base PyStr Base64 Env Prog Chain Gpg Mime States Recommendation Account Cmdline Bot Fs Api Steps StepFacts Exec ApiScope
  Spec Obs PeerSpec OutSpec AcctSpec Incoming Quiet OutProofs CliSpec CliProofs2 TalkSpec GpgUse Utf8 StoreFacts FailSpec.

Section FailProofs.
Context {E : Env}.

Lemma runs_app rs l l' : runs rs (l ++ l') = runs rs l ++ runs (rings_after rs l) l'.
Proof. revert rs. induction l as [|g l IH]; intros rs; cbn [app runs rings_after]; [reflexivity|]. cbv zeta. rewrite IH. reflexivity. Qed.
Lemma rings_after_app rs l l' : rings_after rs (l ++ l') = rings_after (rings_after rs l) l'.
Proof. revert rs. induction l as [|g l IH]; intros rs; cbn [app rings_after]; [reflexivity|]. apply IH. Qed.

(** ** What is tolerated *)
Inductive tolerance := Strict | Mail | Scan.
Definition pardon (t : tolerance) (g : gcall) : Prop :=
  match t with Strict => False | Mail => asks g KImport \/ asks g KListPublic | Scan => True end.
Definition fine (t : tolerance) (x : gcall * gres) : Prop :=
  succeeded (fst x) (snd x) \/ (pardon t (fst x) /\ failed_readably (snd x)).
(** [ke]: the exceptions that somebody will catch *)
Definition ends {A} (ke : exn -> Prop) (r : result A) : Prop := match r with Ok _ => True | Err e => ke e end.
Definition ck (t : tolerance) (ke : exn -> Prop) {A} (p : prog cop A) : Prop :=
  forall s, ends ke (snd (arun p s)) -> exists l, a_trace (fst (arun p s)) = rev l ++ a_trace s /\
    a_rings (fst (arun p s)) = rings_after (a_rings s) l /\ Forall (fine t) (runs (a_rings s) l).

Lemma ck_bind t ke {A B} (p : prog cop A) (f : A -> prog cop B) : ck t ke p -> (forall a, ck t ke (f a)) -> ck t ke (bind p f).
Proof.
  intros Hp Hf s. unfold arun in *. rewrite run_bind. specialize (Hp s). unfold arun in Hp. destruct (run _ p s) as [s1 [a|e]]; cbn [fst snd] in *.
  - intros H. destruct (Hp I) as [l1 [T1 [R1 F1]]]. destruct (Hf a s1 H) as [l2 [T2 [R2 F2]]]. unfold arun in *. exists (l1 ++ l2).
    rewrite T2, T1, R2, R1, rev_app_distr, app_assoc, rings_after_app, runs_app. split; [reflexivity|]. split; [reflexivity|].
    apply Forall_app. split; [exact F1|]. rewrite R1 in F2. exact F2.
  - exact Hp.
Qed.
Lemma ck_none t ke {A} (p : prog cop A) : (forall s, a_trace (fst (arun p s)) = a_trace s /\ a_rings (fst (arun p s)) = a_rings s) -> ck t ke p.
Proof. intros H s _. destruct (H s) as [H1 H2]. exists []. rewrite H1, H2. repeat split. constructor. Qed.
Lemma ck_ret t ke {A} (a : A) : ck t ke (Ret a). Proof. apply ck_none. intros s. split; reflexivity. Qed.
Lemma ck_raise t ke {A} e : ck t ke (A := A) (Raise e). Proof. apply ck_none. intros s. split; reflexivity. Qed.
Lemma ck_lift t ke {A} (r : result A) : ck t ke (lift r). Proof. destruct r; [apply ck_ret|apply ck_raise]. Qed.
Lemma ck_assert t ke b : ck t ke (assert_ b). Proof. destruct b; [apply ck_ret|apply ck_raise]. Qed.
Definition plain_op (X : Type) (o : cop X) : Prop := match o with CRmTree | CGpg _ _ _ => False | _ => True end.
Lemma ck_perform t ke {X} (o : cop X) : plain_op X o -> ck t ke (perform o).
Proof. intros H. apply ck_none. intros s. unfold arun, perform. cbn [run]. destruct o; try destruct H; split; reflexivity. Qed.
Lemma ck_mapM t ke {A B} (f : A -> prog cop B) l : (forall a, ck t ke (f a)) -> ck t ke (mapM f l).
Proof.
  intros H. induction l as [|a l IH]; cbn [mapM]; [apply ck_ret|]. apply ck_bind; [apply H|]. intros b. apply ck_bind; [exact IH|]. intros. apply ck_ret.
Qed.
Lemma ck_foldM t ke {A B} (f : B -> A -> prog cop B) l : (forall b a, ck t ke (f b a)) -> forall b, ck t ke (foldM f l b).
Proof. intros H. induction l as [|a l IH]; intros b; cbn [foldM]; [apply ck_ret|]. apply ck_bind; [apply H|apply IH]. Qed.
Lemma ck_catch t (ke ke' : exn -> Prop) {A} (p : prog cop A) (h : exn -> option (prog cop A)) : ck t ke' p -> (forall e, h e = None -> ke e -> ke' e) ->
  (forall e q, h e = Some q -> ke' e /\ exists a, q = Ret a) -> ck t ke (catch p h).
Proof.
  intros Hp H1 H2 s. unfold arun in *. rewrite run_catch. specialize (Hp s). unfold arun in Hp. destruct (run _ p s) as [s1 [a|e]]; cbn [fst snd] in *.
  - intros _. apply Hp. exact I.
  - destruct (h e) as [q|] eqn:He.
    + destruct (H2 e q He) as [Hk [a ->]]. cbn [run fst]. intros _. apply Hp. exact Hk.
    + cbn [fst snd]. intros Hk. apply Hp. cbn [ends]. apply H1; assumption.
Qed.
(** a program without gpg, whatever it raises *)
Lemma plain_same {A} (p : prog cop A) s : allowed plain_op p -> a_trace (fst (arun p s)) = a_trace s /\ a_rings (fst (arun p s)) = a_rings s.
Proof.
  intros Hp. unfold arun. refine (run_allowed_inv (@astep E) plain_op (fun s' => a_trace s' = a_trace s /\ a_rings s' = a_rings s) p _ Hp s (conj eq_refl eq_refl)).
  intros X o s' Ho [H1 H2]. destruct o; try destruct Ho; cbn [astep fst a_trace a_rings]; auto.
Qed.

(** ** gpg *)
Definition quiet_err (ke : exn -> Prop) : Prop := ~ ke KeyboardInterrupt /\ ~ ke UnicodeError.
Lemma ck_outerr t ke g k argv i tm st dec : quiet_err ke -> of_kind k argv -> (st = true \/ (k <> KExport /\ k <> KExportSecret)) ->
  (ke InvocationFailure -> pardon t (GCall (argv_home (full_argv g argv)) (full_argv g argv) i tm)) -> ck t ke (gpg_outerr g argv i tm st dec).
Proof.
  intros [Hk Hu] Ho Hst Hp s. unfold gpg_outerr. unfold arun. rewrite run_bind. unfold perform. cbn [run].
  change ([gp_path g; L "--batch"] ++ homedirflags g ++ argv) with (full_argv g argv). cbn [astep].
  set (gc := GCall (argv_home (full_argv g argv)) (full_argv g argv) i tm).
  destruct (gpg (ring_at (a_rings s) (argv_home (full_argv g argv))) (full_argv g argv) i tm) as [r' res] eqn:Eg. cbv beta iota.
  set (s1 := AState _ _ _ _ _).
  assert (Hl : forall x : result (list N * text), (forall e, x = Err e -> ke e -> e = InvocationFailure /\ failed_readably res) ->
    (forall y, x = Ok y -> succeeded gc res) -> ends ke x ->
    exists l, a_trace s1 = rev l ++ a_trace s /\ a_rings s1 = rings_after (a_rings s) l /\ Forall (fine t) (runs (a_rings s) l)).
  { intros x He Hx Hend. exists [gc]. cbn [rev app rings_after runs]. subst gc. cbn [gc_home gc_argv gc_in gc_tmp]. rewrite Eg. cbn [fst snd].
    split; [reflexivity|]. split; [reflexivity|]. constructor; [|constructor]. unfold fine. cbn [fst snd]. destruct x as [y|e]; [left; eapply Hx; reflexivity|].
    cbn [ends] in Hend. destruct (He e eq_refl Hend) as [-> Hf]. right. split; [apply Hp, Hend|exact Hf]. }
  destruct (Z.eqb_spec (g_ret res) 130) as [H130|H130].
  { cbn [run fst snd ends]. intros H. contradiction. }
  destruct (utf8 (g_err res)) as [err|] eqn:Ee; [|cbn [run fst snd ends]; intros H; contradiction].
  assert (Hf : failed_readably res) by (split; [exact H130|congruence]).
  destruct (if dec then utf8 (g_out res) else Some (g_out res)) as [out|]; [|cbn [run fst snd ends]; intros H; contradiction].
  destruct (Z.eqb_spec (g_ret res) 0) as [H0|H0]; cbn [negb orb].
  2: { cbn [run fst snd]. apply Hl; [intros e [= <-] _; auto|discriminate]. }
  destruct (st && nonempty err) eqn:Es; cbn [run fst snd].
  { apply Hl; [intros e [= <-] _; auto|discriminate]. }
  apply Hl; [discriminate|]. intros y _. split; [exact H0|]. split; [congruence|]. intros Hx.
  assert (Hak : asks gc k). { exists (gp_path g), (homedirflags g), argv. split; [reflexivity|]. split; [apply flags_home|exact Ho]. }
  destruct Hst as [->|[N1 N2]].
  - cbn [andb] in Es. destruct err; [|discriminate]. apply utf8_inverse in Ee. injection Ee as <-. reflexivity.
  - destruct Hx as [Hx|Hx]; [destruct N1|destruct N2]; eapply c65_kind; eassumption.
Qed.

(** Who may catch what: nobody anything; in a scan, failures of gpg; for incoming mail,
    failures of these two commands. *)
Definition caught (t : tolerance) (ke : exn -> Prop) : Prop := (forall e, ~ ke e) \/ (t = Scan /\ quiet_err ke).
Definition caught2 (t : tolerance) (ke : exn -> Prop) : Prop := caught t ke \/ (t = Mail /\ quiet_err ke).
Lemma caught_quiet t ke : caught2 t ke -> quiet_err ke.
Proof. intros [[H|[_ H]]|[_ H]]; [split; apply H|exact H|exact H]. Qed.
Lemma ck_outerr1 t ke g k argv i tm st dec : caught t ke -> of_kind k argv -> (st = true \/ (k <> KExport /\ k <> KExportSecret)) ->
  ck t ke (gpg_outerr g argv i tm st dec).
Proof.
  intros Hc Ho Hs. apply ck_outerr with (k := k); [apply (caught_quiet t); left; exact Hc|exact Ho|exact Hs|].
  intros Hk. destruct Hc as [Hc|[-> _]]; [destruct (Hc _ Hk)|exact I].
Qed.
Lemma asks_full g k argv i tm : of_kind k argv -> asks (GCall (argv_home (full_argv g argv)) (full_argv g argv) i tm) k.
Proof. intros H. exists (gp_path g), (homedirflags g), argv. split; [reflexivity|]. split; [apply flags_home|exact H]. Qed.
Lemma ck_outerr2 t ke g k argv i tm st dec : caught2 t ke -> of_kind k argv -> k = KImport \/ k = KListPublic ->
  ck t ke (gpg_outerr g argv i tm st dec).
Proof.
  intros Hc Ho Hs. apply ck_outerr with (k := k); [apply (caught_quiet t); exact Hc|exact Ho|right; destruct Hs as [->| ->]; split; discriminate|].
  intros Hk. destruct Hc as [[Hc|[-> _]]|[-> _]]; [destruct (Hc _ Hk)|exact I|]. cbn [pardon]. destruct Hs as [->| ->]; [left|right]; apply asks_full; exact Ho.
Qed.
End FailProofs.
Create HintDb ck.
Ltac ck_step := match goal with
  | |- ck _ _ (bind _ _) => apply ck_bind; [|intros]
  | |- ck _ _ (lift _) => apply ck_lift
  | |- ck _ _ (assert_ _) => apply ck_assert
  | |- ck _ _ (perform _) => apply ck_perform; exact I
  | |- ck _ _ (Ret _) => apply ck_ret
  | |- ck _ _ (Raise _) => apply ck_raise
  | |- ck _ _ (mapM _ _) => apply ck_mapM; intros
  | |- ck _ _ (foldM _ _ _) => apply ck_foldM; intros
  | |- ck _ _ (match ?x with _ => _ end) => destruct x
  | |- ck _ _ (let (_, _) := ?x in _) => destruct x
  end.
Ltac cks := repeat first [ck_step | solve [auto with ck]].

Section FailProofs2.
Context {E : Env} (t : tolerance) (ke : exn -> Prop).

Context (Hc : caught2 t ke).
Lemma ck_list_public g kh : ck t ke (list_public_keyinfos g kh).
Proof. unfold list_public_keyinfos, parse_list. apply ck_bind; [eapply ck_outerr2; [exact Hc|constructor|auto]|]. intros [o e]. cks. Qed.
Lemma ck_find_keyhandle g e : ck t ke (find_keyhandle g e).
Proof. unfold find_keyhandle. destruct (search_key e); [|cks]. destruct (Nat.leb _ _); [|cks]. apply ck_bind; [apply ck_list_public|]. intros. cks. Qed.
Lemma ck_import_plain g d : ck t ke (import_keydata g d false).
Proof.
  unfold import_keydata. apply ck_bind; [eapply ck_outerr2; [exact Hc|constructor|auto]|]. intros [o e]. apply ck_bind; [apply ck_find_keyhandle|]. intros. cks.
Qed.
End FailProofs2.

Section FailProofs3.
Context {E : Env} (t : tolerance) (ke : exn -> Prop).
Context (Hc : caught t ke).
Let Hc2 : caught2 t ke := or_introl Hc.
Hint Resolve Hc Hc2 ck_list_public ck_find_keyhandle ck_import_plain : ck.
Lemma ck_own_config a : ck t ke (own_config a). Proof. unfold own_config. cks. Qed.
Lemma ck_own_keyhandle a : ck t ke (own_keyhandle a). Proof. unfold own_keyhandle. cks. Qed.
Hint Resolve ck_own_config ck_own_keyhandle : ck.
Lemma ck_get_bingpg a : ck t ke (get_bingpg a). Proof. unfold get_bingpg. cks. Qed.
Lemma ck_version_known g : ck t ke (version_known g). Proof. unfold version_known. cks. Qed.
Hint Resolve ck_get_bingpg ck_version_known : ck.
Ltac out := apply ck_bind; [eapply ck_outerr1; [exact Hc|constructor; apply pass_ok|]; first [left; reflexivity|right; split; discriminate]|intros [? ?]].
Ltac out0 := apply ck_bind; [eapply ck_outerr1; [exact Hc|constructor|]; first [left; reflexivity|right; split; discriminate]|intros [? ?]].
Lemma ck_list_secret g kh : ck t ke (list_secret_keyinfos g kh).
Proof. unfold list_secret_keyinfos, parse_list. out0. cks. Qed.
Hint Resolve ck_list_secret : ck.
Lemma ck_get_secret_keyhandle g kh : ck t ke (get_secret_keyhandle g kh). Proof. unfold get_secret_keyhandle. cks. Qed.
Lemma ck_get_public_keydata g kh b : ck t ke (get_public_keydata g kh b). Proof. unfold get_public_keydata. out0. cks. Qed.
Lemma ck_get_secret_keydata g kh b : ck t ke (get_secret_keydata g kh b).
Proof. unfold get_secret_keydata. apply ck_bind; [cks|intros _]. out. cks. Qed.
Hint Resolve ck_get_secret_keyhandle ck_get_public_keydata ck_get_secret_keydata : ck.
Lemma ck_gen_secret_key g e : ck t ke (gen_secret_key g e).
Proof. unfold gen_secret_key. apply ck_bind; [cks|intros spec]. apply ck_bind; [cks|intros _]. out. cks. Qed.
Lemma ck_gpg_encrypt g d r k : ck t ke (gpg_encrypt g d r k).
Proof.
  unfold gpg_encrypt, encrypt_argv. apply ck_bind; [cks|intros _].
  apply ck_bind; [|intros [? ?]; cks]. eapply ck_outerr1; [exact Hc|cbn [app]; apply k_encrypt; apply pass_ok|right; split; discriminate].
Qed.
Lemma ck_gpg_decrypt g d : ck t ke (gpg_decrypt g d).
Proof. unfold gpg_decrypt. apply ck_bind; [cks|intros _]. out. cbv zeta. cks. Qed.
Lemma ck_import_keydata g d b : ck t ke (import_keydata g d b).
Proof.
  destruct b; [|auto with ck]. unfold import_keydata. out0. apply ck_bind; [auto with ck|]. intros kh. apply ck_bind; [auto with ck|]. intros mi.
  out0. out0. cks.
Qed.
Hint Resolve ck_gen_secret_key ck_gpg_encrypt ck_gpg_decrypt ck_import_keydata : ck.
Lemma ck_ensure_init : ck t ke ensure_init. Proof. unfold ensure_init, set_version, mgr_version. cks. Qed.
Hint Resolve ck_ensure_init : ck.
Lemma ck_get_account n b : ck t ke (get_account n b). Proof. unfold get_account, account_exists. cks. Qed.
Hint Resolve ck_get_account : ck.
Lemma ck_create n r kh b m : ck t ke (create n r kh b m).
Proof. unfold create, new_config, append_keygen. cks. Qed.
Hint Resolve ck_create : ck.
Lemma ck_add_account n r kh b m : ck t ke (add_account n r kh b m). Proof. unfold add_account, account_exists. cks. Qed.
Lemma ck_mod_account n r kh b p : ck t ke (mod_account n r kh b p). Proof. unfold mod_account, change_config. cbv zeta. cks. Qed.
Lemma ck_del_account n : ck t ke (del_account n). Proof. unfold del_account, remove_account. cks. Qed.
Lemma ck_loop names x : ck t ke (account_loop names x).
Proof. induction names as [|n names IH]; cbn [account_loop]; cks. Qed.
Hint Resolve ck_add_account ck_mod_account ck_del_account ck_loop : ck.
Lemma ck_list_names : ck t ke list_account_names. Proof. unfold list_account_names, get_account_names. cks. Qed.
Hint Resolve ck_list_names : ck.
Lemma ck_from_emailadr x r : ck t ke (get_account_from_emailadr x r). Proof. unfold get_account_from_emailadr. cks. Qed.
Hint Resolve ck_from_emailadr : ck.
Lemma ck_matching m : ck t ke (get_matching_account m). Proof. unfold get_matching_account. cks. Qed.
Lemma ck_recommend a l b f : ck t ke (recommend a l b f). Proof. unfold recommend, ui_recommendation. cks. Qed.
Lemma ck_make_ac_header a x : ck t ke (make_ac_header a x). Proof. unfold make_ac_header. cks. Qed.
Lemma ck_export_public a kh : ck t ke (export_public_key a kh). Proof. unfold export_public_key. cks. Qed.
Lemma ck_export_secret a : ck t ke (export_secret_key a). Proof. unfold export_secret_key. cks. Qed.
Lemma ck_decrypt_mime a m : ck t ke (decrypt_mime a m). Proof. unfold decrypt_mime. cks. Qed.
Lemma ck_encrypt_recipient a st x : ck t ke (encrypt_recipient a st x). Proof. unfold encrypt_recipient. cbv zeta. cks. Qed.
Hint Resolve ck_matching ck_recommend ck_make_ac_header ck_export_public ck_export_secret ck_decrypt_mime ck_encrypt_recipient : ck.
Lemma ck_encrypt_mime a m to : ck t ke (encrypt_mime a m to). Proof. unfold encrypt_mime. cbv zeta. cks. Qed.
Hint Resolve ck_encrypt_mime : ck.
Lemma ck_process_outgoing a m : ck t ke (process_outgoing a m). Proof. unfold process_outgoing. cbv zeta. cks. Qed.
Lemma ck_update c i d p k h : ck t ke (update_from_msg c i d p k h). Proof. unfold update_from_msg. cbv zeta. cks. Qed.
Lemma ck_gossip c i d k h : ck t ke (update_from_msg_gossip c i d k h). Proof. unfold update_from_msg_gossip. cbv zeta. cks. Qed.
Hint Resolve ck_process_outgoing ck_update ck_gossip : ck.
Lemma ck_import_as a x k p : ck t ke (import_keydata_as_autocrypt a x k p).
Proof. unfold import_keydata_as_autocrypt. cks. Qed.
Lemma ck_status_account a v : ck t ke (cli_status_account a v).
Proof. unfold cli_status_account, get_peername_list, status_peer_line. cbv zeta. cks. Qed.
Hint Resolve ck_import_as ck_status_account : ck.
Lemma ck_status v : ck t ke (cli_status v). Proof. unfold cli_status. cks. Qed.
Hint Resolve ck_status : ck.
Lemma ck_cli_outgoing m : ck t ke (cli_process_outgoing m). Proof. unfold cli_process_outgoing. cbv zeta. cks. Qed.

(** ** Incoming mail *)
Context (Ht : t <> Strict).
Lemma caught_import : caught2 t (fun e => e = InvocationFailure \/ ke e).
Proof.
  assert (Hq : quiet_err (fun e => e = InvocationFailure \/ ke e)).
  { destruct (caught_quiet t ke Hc2) as [H1 H2]. split; intros [H|H]; try discriminate; contradiction. }
  destruct t; [congruence| |]; [right; auto|left; right; auto].
Qed.
Lemma ck_import_key a p : ck t ke (import_key a p).
Proof.
  unfold import_key. apply ck_bind; [auto with ck|]. intros g. destruct (p_keydata p); [|cks].
  apply ck_catch with (ke' := fun e => e = InvocationFailure \/ ke e).
  - apply ck_bind; [apply ck_import_plain; exact caught_import|]. intros. cks.
  - auto.
  - intros e q He. destruct e; try discriminate. injection He as <-. eauto.
Qed.
Hint Resolve ck_import_key : ck.
Lemma ck_gossip_recipient a d i st r : ck t ke (gossip_recipient a d i st r).
Proof. unfold gossip_recipient. cks. Qed.
Hint Resolve ck_gossip_recipient : ck.
Lemma ck_gossip_headers a m d i : ck t ke (process_gossip_headers a m d i). Proof. unfold process_gossip_headers. cks. Qed.
Lemma ck_ac_header a m f c d i : ck t ke (process_autocrypt_header a m f c d i). Proof. unfold process_autocrypt_header. cks. Qed.
Hint Resolve ck_gossip_headers ck_ac_header : ck.
Lemma ck_process_incoming a m i n : ck t ke (process_incoming a m i n).
Proof. unfold process_incoming, effective_date. cbv zeta. cks. Qed.
Hint Resolve ck_process_incoming : ck.
Lemma ck_cli_incoming n r d m : ck t ke (cli_process_incoming n r d m). Proof. unfold cli_process_incoming. cks. Qed.
Lemma ck_bot f b m : ck t ke (bot_reply f b m). Proof. unfold bot_reply. cbv zeta. cks. Qed.
End FailProofs3.

Section FailProofs4.
Context {E : Env}.
Definition no_error (e : exn) : Prop := False.
Lemma caught_nothing t : caught t no_error. Proof. left. intros e []. Qed.
Lemma plain_matching m : allowed plain_op (get_matching_account m).
Proof.
  assert (Ha : forall n b, allowed plain_op (get_account n b)).
  { intros n b. unfold get_account, ensure_init, mgr_version, set_version, account_exists, assert_. 
    repeat first [apply allowed_bind; [|intros]|apply allowed_perform; exact I|constructor|match goal with |- allowed _ (match ?x with _ => _ end) => destruct x end]. }
  assert (Hl : forall names x, allowed plain_op (account_loop names x)).
  { induction names as [|n names IH]; intros x; cbn [account_loop]; [constructor|]. apply allowed_bind; [apply Ha|intros]. unfold own_config.
    repeat first [apply IH|apply allowed_bind; [|intros]|apply allowed_perform; exact I|apply allowed_lift|constructor|match goal with |- allowed _ (match ?x with _ => _ end) => destruct x end]. }
  unfold get_matching_account, list_account_names, get_account_names, get_account_from_emailadr, own_config.
  repeat first [apply Ha|apply Hl|apply allowed_bind; [|intros]|apply allowed_mapM; intros|apply allowed_perform; exact I|apply allowed_lift|constructor|match goal with |- allowed _ (match ?x with _ => _ end) => destruct x end].
Qed.
Lemma ck_scan_one r now f : ck Scan no_error (scan_one r now f).
Proof.
  unfold scan_one, effective_date. destruct f as [mt m]. destruct (is_too_old now mt); [cks|]. destruct (hget m (L "message-id")); [|cks].
  apply ck_bind; [cks|intros d]. apply ck_bind; [cks|intros date]. destruct (is_too_old now date); [cks|].
  apply ck_bind.
  - apply ck_none. intros s. apply plain_same. apply allowed_catch; [apply allowed_bind; [apply plain_matching|intros; constructor]|].
    intros e q He. destruct e; try discriminate; injection He as <-; constructor.
  - intros [a|]; [|cks]. apply ck_bind.
    + apply ck_catch with (ke' := fun e => e = InvocationFailure).
      * apply ck_bind; [|intros; cks]. apply ck_process_incoming; [|discriminate]. right. split; [reflexivity|]. split; discriminate.
      * intros e _ [].
      * intros e q He. destruct e; try discriminate. injection He as <-. eauto.
    + intros [[i|]|]; [|cks|cks]. destruct (has_error (in_pah i)); cks.
Qed.
Definition level (c : api) : tolerance :=
  match c with AIncoming _ _ _ _ | ACliIncoming _ _ _ _ | ABot _ _ _ => Mail | ACliScandir _ _ => Scan | _ => Strict end.
Lemma ck_exec c : c <> ARemove -> (forall y, c <> ACliDestroy y) -> ck (level c) no_error (exec c).
Proof.
  intros Hr Hd. pose proof (caught_nothing (level c)) as Hc. set (t := level c) in *.
  assert (Hw : forall (A : Type) n (f : text -> prog cop A), (forall a, ck t no_error (f a)) -> ck t no_error (with_account n f)).
  { intros A n f Hf. unfold with_account. apply ck_bind; [apply ck_get_account|exact Hf]. }
  destruct c; cbn [exec]; try (apply Hw; intros ?); try (destruct (Hr eq_refl)); try (destruct (Hd yes eq_refl)).
  - apply ck_bind; [apply ck_add_account; exact Hc|intros; cks].
  - apply ck_bind; [apply ck_mod_account|intros; cks].
  - apply ck_bind; [apply ck_del_account|intros; cks].
  - apply ck_bind; [apply ck_from_emailadr|intros; cks].
  - apply ck_bind; [apply ck_list_names|intros; cks].
  - apply ck_bind; [apply ck_matching|intros; cks].
  - apply ck_bind; [apply ck_process_incoming; [exact Hc|discriminate]|intros; cks].
  - apply ck_bind; [apply ck_process_outgoing; exact Hc|intros; cks].
  - apply ck_bind; [apply ck_encrypt_mime; exact Hc|intros; cks].
  - apply ck_bind; [apply ck_decrypt_mime; exact Hc|intros; cks].
  - apply ck_bind; [apply ck_recommend|intros; cks].
  - apply ck_bind; [apply ck_make_ac_header; exact Hc|intros; cks].
  - apply ck_bind; [apply ck_export_public; exact Hc|intros; cks].
  - apply ck_bind; [apply ck_export_secret; exact Hc|intros; cks].
  - apply ck_bind; [apply ck_import_as; exact Hc|intros; cks].
  - cbv zeta. cks.
  - unfold get_peername_list. cks.
  - unfold own_config, own_keyhandle. cks.
  - unfold append_self_verification. cks.
  - unfold append_peer_verification. cks.
  - unfold get_verification. cks.
  - unfold cli_add_account. apply ck_bind; [|intros; cks]. apply ck_bind; [apply ck_add_account; exact Hc|intros; apply ck_status_account; exact Hc].
  - unfold cli_mod_account. apply ck_bind; [|intros; cks]. apply ck_bind; [apply ck_mod_account|intros [? ?]]. apply ck_bind; [apply ck_status_account; exact Hc|intros; cks].
  - unfold cli_del_account. apply ck_bind; [|intros; cks]. apply ck_bind; [apply ck_del_account|intros; apply ck_status; exact Hc].
  - apply ck_bind; [apply ck_status; exact Hc|intros; cks].
  - apply ck_bind; [apply ck_cli_incoming; [exact Hc|discriminate]|intros; cks].
  - apply ck_bind; [|intros; cks]. unfold cli_scandir. apply ck_bind; [cks|intros]. apply ck_mapM. intros. apply ck_scan_one.
  - apply ck_bind; [apply ck_cli_outgoing; exact Hc|intros; cks].
  - unfold cli_peerstate. cbv zeta. apply ck_bind; [|intros; cks]. apply ck_bind; [apply ck_get_account|intros; cks].
  - apply ck_bind; [apply ck_bot; [exact Hc|discriminate]|intros; cks].
Qed.

(** ** The theorems *)
Lemma level_excused c g : pardon (level c) g -> excused c g.
Proof. unfold excused. destruct c; cbn [level pardon takes_mail scans]; tauto. Qed.
Lemma no_gpg_did s s' l : a_trace s' = a_trace s -> did s s' l -> l = [].
Proof.
  intros He [gs [H1 ->]]. rewrite He in H1. assert (rev gs = []) as H by (apply (app_inv_tail (a_trace s)); rewrite <- H1; reflexivity).
  destruct gs as [|g gs]; [reflexivity|]. cbn [rev] in H. destruct (rev gs); discriminate H.
Qed.
Theorem c74_not_overlooked : forall s c r l, answer s c = Ok r -> did s (after s c) l ->
  Forall (fun x => succeeded (fst x) (snd x) \/ (excused c (fst x) /\ failed_readably (snd x))) l.
Proof.
  intros s c r l Ha Hd.
  assert (Hc : c = ARemove \/ (exists y, c = ACliDestroy y) \/ (c <> ARemove /\ forall y, c <> ACliDestroy y)).
  { destruct c; try (right; right; split; [discriminate|intros ? ?; discriminate]); eauto. }
  destruct Hc as [->|[[y ->]|[H1 H2]]].
  - apply no_gpg_did in Hd; [subst l; constructor|reflexivity].
  - apply no_gpg_did in Hd; [subst l; constructor|]. unfold after. cbn [exec]. unfold arun. rewrite run_bind. unfold cli_destroy_all, mgr_version, remove_all.
    destruct y; [|reflexivity]. rewrite !run_bind. cbn [run perform astep]. unfold perform. cbn [run astep].
    destruct (option_map _ _); reflexivity.
  - pose proof (ck_exec c H1 H2 s) as Hk. unfold answer in Ha. rewrite Ha in Hk. destruct (Hk I) as [gs [T [_ F]]].
    destruct Hd as [gs' [T' ->]]. unfold after in T'. rewrite T in T'. apply app_inv_tail in T'. rewrite <- (rev_involutive gs'), <- T', rev_involutive.
    apply Forall_forall. intros x Hx. rewrite Forall_forall in F. destruct (F x Hx) as [Hf|[Hf Hf']]; [left; exact Hf|right]. split; [apply level_excused, Hf|exact Hf'].
Qed.
Theorem c74_rings : forall s c, c <> ARemove -> (forall y, c <> ACliDestroy y) ->
  exists gs, a_trace (after s c) = rev gs ++ a_trace s /\ a_rings (after s c) = rings_after (a_rings s) gs.
Proof.
  intros s c H1 H2. assert (Hp : allowed no_rmtree (exec c)) by (apply exec_no_rmtree; destruct c; try exact I; [apply H1; reflexivity|exfalso; eapply H2; reflexivity]). unfold after, arun.
  refine (run_allowed_inv (@astep E) no_rmtree (fun s' => exists gs, a_trace s' = rev gs ++ a_trace s /\ a_rings s' = rings_after (a_rings s) gs) (exec c) _ Hp s _).
  - intros X o s' Ho [gs [T R]]. destruct o; try destruct Ho; cbn [astep fst]; try (exists gs; split; [exact T|exact R]).
    destruct (gpg (ring_at (a_rings s') (argv_home argv)) argv inp tmp) as [r' res] eqn:Eg. cbn [fst a_trace a_rings].
    exists (gs ++ [GCall (argv_home argv) argv inp tmp]). rewrite rev_app_distr, rings_after_app, <- R, T. cbn [rev app rings_after gc_home gc_argv gc_in gc_tmp].
    rewrite Eg. split; reflexivity.
  - exists []. split; reflexivity.
Qed.
End FailProofs4.
