(** The gpg processes behind the recorded key handles: histories (C97). *)
From Verif Require Import Base PyStr Env Prog Chain Gpg Mime States Recommendation Account Cmdline Bot Fs Api Steps StepFacts Exec ApiScope
  Spec Obs PeerSpec OutSpec AcctSpec Incoming PeerFacts PeerProofs4 Quiet OutProofs AcctFacts AcctProofs AcctProofs2 Rings CliSpec TalkSpec
  GpgSpec GpgText KeySpec KeyText KeyProofs FailSpec FailProofs Utf8 StoreFacts HandleProofs RealProofs ToldSpec ToldProofs ToldProofs2.

Section ToldProofs3.
Context {E : Env}.

(** ** Calls that record no keys *)
Definition mild0 (X : Type) (o : cop X) : Prop := match o with CAppend _ e => unkeyed e | _ => True end.
Lemma allowed_weaker {A} (P Q : forall X, cop X -> Prop) (p : prog cop A) : (forall X o, P X o -> Q X o) -> allowed P p -> allowed Q p.
Proof. intros H Hp. induction Hp; constructor; auto. Qed.
Lemma md0 {A} (p : prog cop A) : allowed mild p -> allowed mild0 p.
Proof. apply allowed_weaker. intros X o. destruct o; cbn [mild mild0]; tauto. Qed.
Definition B (s0 s : ast) : Prop := forall n b, In b (alog s n) -> In b (alog s0 n) \/ unkeyed (bl_entry b).
Lemma B_keep s0 {A} (p : prog cop A) : allowed mild0 p -> B s0 (fst (arun p s0)).
Proof.
  intros Hp. unfold arun. refine (run_allowed_inv (@astep E) mild0 (B s0) p _ Hp s0 _); [|intros n b; auto].
  intros X o s Ho Hs n b. destruct o; try exact (Hs n b).
  - unfold alog at 1. cbn [astep fst a_logs]. rewrite dget_dset. destruct (text_eqb_spec n n0) as [->|Hn]; [|exact (Hs n b)].
    intros [<-|Hb]; [right; exact Ho|apply Hs, Hb].
  - unfold alog at 1. cbn [astep fst a_logs]. rewrite dget_dremove_if. destruct (f n); [intros []|exact (Hs n b)].
  - intros [].
  - cbn [astep]. destruct (gpg _ argv inp tmp) as [r' res]. exact (Hs n b).
Qed.
Ltac m0 := repeat first
  [ apply md0; solve [auto with md nocore]
  | solve [auto with m0 nocore]
  | apply allowed_bind; [|intros]
  | apply allowed_lift | apply allowed_assert
  | apply allowed_perform; exact I
  | apply allowed_foldM; intros | apply allowed_mapM; intros
  | constructor
  | match goal with |- allowed _ (match ?x with _ => _ end) => destruct x end
  | match goal with |- allowed _ (if ?x then _ else _) => destruct x end ].
#[local] Hint Resolve md_gpg_outerr md_list_pub md_sec md_find md_gen md_pk md_sk md_enc md_dec md_imp md_oc md_ok md_bg md_ei md_ae md_ga md_names md_pnames
  md_loop md_from md_match md_rec md_hdr md_ik md_dm md_em md_po md_sa md_st : md.
Lemma md_cfg {B} c (f : entry -> prog cop B) : (forall e, unkeyed e -> allowed mild0 (f e)) -> allowed mild0 (e <- lift (mk_cfg_entry c) ;; f e).
Proof. intros H. unfold mk_cfg_entry. destruct (_ && _); cbn [lift bind]; [apply H; exact I|constructor]. Qed.
Lemma md_new a c : allowed mild0 (new_config a c).
Proof. unfold new_config. apply md_cfg. intros e He. apply allowed_perform. exact He. Qed.
Lemma md_change a p r b : allowed mild0 (change_config a p r b).
Proof.
  unfold change_config. apply allowed_bind; [apply allowed_perform; exact I|]. intros l. destruct (latest_config l); [|constructor]. cbv zeta. apply md_cfg. intros e He.
  destruct (cfg_eqb _ _); [constructor|]. apply allowed_bind; [apply allowed_perform; exact He|]. intros. constructor.
Qed.
#[local] Hint Resolve md_new md_change : m0.
Lemma md_cr a r k b m : allowed mild0 (create a r k b m). Proof. unfold create, append_keygen. m0. Qed.
#[local] Hint Resolve md_cr : m0.
Lemma md_add a r k b m : allowed mild0 (add_account a r k b m). Proof. unfold add_account. m0. Qed.
Lemma md_mod a r k b m : allowed mild0 (mod_account a r k b m). Proof. unfold mod_account. m0. Qed.
Lemma md_del a : allowed mild0 (del_account a). Proof. unfold del_account, remove_account. m0. Qed.
#[local] Hint Resolve md_add md_mod md_del : m0.
Definition records (c : api) : Prop :=
  match c with AIncoming _ _ _ _ | ACliIncoming _ _ _ _ | ACliScandir _ _ | ABot _ _ _ | AImport _ _ _ _ => True | _ => False end.
Lemma exec_mild0 c : ~ records c -> allowed mild0 (exec c).
Proof.
  destruct c; intros H; try (destruct (H I)); cbn [exec]; clear H;
    unfold with_account, export_public_key, export_secret_key, append_self_verification, append_peer_verification,
      get_verification, cli_add_account, cli_mod_account, cli_del_account, remove_all, cli_destroy_all, mgr_version,
      cli_process_outgoing, cli_peerstate; solve [m0].
Qed.

(** ** Calls that record keys *)
Section Call.
Variable s0 : ast.
Ltac kmild := apply keep_mild; [apply J_steady|solve [md]].
Lemma keep_scan r now f : keep (J s0) (scan_one r now f).
Proof.
  unfold scan_one, effective_date. destruct f as [mt m]. destruct (is_too_old now mt); [kmild|]. destruct (hget m (L "message-id")); [|kmild].
  apply keep_then; [kmild|intros d]. apply keep_then; [kmild|intros date]. destruct (is_too_old now date); [kmild|].
  apply (keep_bind _ _ _ (some_name s0)).
  - kmild.
  - intros s o HJ H a ->. unfold arun in H. rewrite run_catch in H.
    destruct (run (@astep E) (a <- get_matching_account m;; Ret (Some a)) s) as [s1 [o|e]] eqn:Er.
    + cbn [snd] in H. injection H as ->. assert (Hr : arun (a <- get_matching_account m;; Ret (Some a)) s = (s1, Ok (Some a))) by exact Er.
      apply arun_bind_ok in Hr as [s2 [a' [H1 H2]]]. apply arun_ret_ok in H2 as [_ [= ->]]. apply (okr_matching s0 m s); [exact HJ|]. rewrite H1. reflexivity.
    + destruct e; discriminate H.
  - intros [a|] Ha; [|kmild]. apply keep_then; [|intros [[i|]|]; kmild]. apply keep_catch.
    + apply keep_then; [apply keep_process_incoming; apply Ha; reflexivity|intros; kmild].
    + intros e q Hq. destruct e; try discriminate Hq. injection Hq as <-. kmild.
Qed.
Lemma keep_with {A} n (f : text -> prog cop A) : (forall a, there s0 a -> keep (J s0) (f a)) -> keep (J s0) (with_account n f).
Proof. intros H. unfold with_account. eapply keep_bind; [kmild|apply okr_account|exact H]. Qed.
Lemma keep_exec c : records c -> keep (J s0) (exec c).
Proof.
  destruct c; intros H; try contradiction; cbn [exec]; unfold cli_process_incoming, cli_scandir.
  - apply keep_with. intros a Ha. apply keep_then; [apply keep_process_incoming; exact Ha|intros; kmild].
  - apply keep_with. intros a Ha. apply keep_then; [apply keep_import_as; exact Ha|intros; kmild].
  - apply keep_then; [|intros; kmild]. apply (keep_bind _ _ _ (there s0)).
    + kmild.
    + destruct name; [apply okr_account|apply okr_matching].
    + intros a Ha. apply keep_then; [apply keep_process_incoming; exact Ha|intros r; kmild].
  - apply keep_then; [|intros; kmild]. apply keep_then; [kmild|intros now]. apply keep_mapM. intros f. apply keep_scan.
  - apply keep_then; [|intros; kmild]. unfold bot_reply. apply keep_then; [kmild|intros d].
    eapply keep_bind; [kmild|apply okr_from|]. intros [a|] Ha; [|kmild].
    apply keep_then; [apply keep_process_incoming; apply Ha; reflexivity|intros r; kmild].
Qed.
End Call.

(** ** Histories *)
Definition behind (h : list api) (a : text) (kd : bytes) (kh : text) : Prop :=
  exists h1 c h2 cfg own l, let s := after_all ast0 h1 in
    h = h1 ++ c :: h2 /\ own_of s a = Some (cfg, own) /\ did s (after s c) l /\ told_in l cfg a kd kh.
Lemma call_entries h c n b : In b (alog (after (after_all ast0 h) c) n) -> In b (alog (after_all ast0 h) n) \/ unkeyed (bl_entry b) \/
  exists a x kd kh, n = peer_chain a x /\ isalnum a = true /\ keyed (bl_entry b) kd kh /\ behind (h ++ [c]) a kd kh.
Proof.
  set (s := after_all ast0 h). intros Hb. assert (Hr : reachable s) by (apply reachable_after_all, reachable_init).
  assert (Hd : records c \/ ~ records c) by (destruct c; cbn [records]; tauto). destruct Hd as [Hd|Hd].
  - destruct (keep_exec s c Hd s (J_refl s)) as [[gs [Hs Hl]] _]. fold (after s c) in Hs, Hl. destruct (Hl n b Hb) as [H|[H|H]]; [left; exact H|right; left; exact H|].
    right. right. destruct H as [a [x [cfg [kd [kh [H1 [H2 [H3 [H4 [H5 H6]]]]]]]]]]. exists a, x, kd, kh. split; [exact H1|]. split; [exact H2|]. split; [exact H5|].
    destruct (exists_own s a (reachable_WF s Hr) H3) as [cfg' [own Ho]]. destruct (wf_config s a cfg' own (reachable_WF s Hr) Ho) as [Hc _].
    assert (cfg' = cfg) by congruence. subst cfg'. exists h, c, [], cfg, own, (runs (a_rings s) gs). cbv zeta. fold s. split; [reflexivity|]. split; [exact Ho|].
    split; [|exact H6]. exists gs. split; [exact (proj1 Hs)|reflexivity].
  - destruct (B_keep s (exec c) (exec_mild0 c Hd) n b Hb) as [H|H]; [left; exact H|right; left; exact H].
Qed.
Lemma behind_more h c a kd kh : behind h a kd kh -> behind (h ++ [c]) a kd kh.
Proof. intros [h1 [c1 [h2 [cfg [own [l [-> H]]]]]]]. exists h1, c1, (h2 ++ [c]), cfg, own, l. cbv zeta. split; [rewrite <- app_assoc; reflexivity|exact H]. Qed.
Lemma history_entries h : forall n b, In b (alog (after_all ast0 h) n) -> unkeyed (bl_entry b) \/
  exists a x kd kh, n = peer_chain a x /\ isalnum a = true /\ keyed (bl_entry b) kd kh /\ behind h a kd kh.
Proof.
  induction h as [|c h IH] using rev_ind; [intros n b []|]. intros n b. rewrite after_all_app, after_all_cons, after_all_nil. intros Hb.
  destruct (call_entries h c n b Hb) as [H|[H|H]]; [|left; exact H|right; exact H]. destruct (IH n b H) as [H1|[a [x [kd [kh [H1 [H2 [H3 H4]]]]]]]]; [left; exact H1|].
  right. exists a, x, kd, kh. repeat (split; [assumption|]). apply behind_more, H4.
Qed.
Lemma msg_block l e : In e (msg_entries l) -> exists b, In b l /\ bl_entry b = EMsg e.
Proof.
  induction l as [|b l IH]; [intros []|]. cbn [msg_entries]. destruct (bl_entry b) eqn:Eb; intros H;
    try (destruct (IH H) as [b' [H1 H2]]; exists b'; split; [right; exact H1|exact H2]).
  destruct H as [->|H]; [exists b; split; [left; reflexivity|exact Eb]|]. destruct (IH H) as [b' [H1 H2]]. exists b'. split; [right; exact H1|exact H2].
Qed.
Lemma gossip_block l e : In e (gossip_entries l) -> exists b, In b l /\ bl_entry b = EGossip e.
Proof.
  induction l as [|b l IH]; [intros []|]. cbn [gossip_entries]. destruct (bl_entry b) eqn:Eb; intros H;
    try (destruct (IH H) as [b' [H1 H2]]; exists b'; split; [right; exact H1|exact H2]).
  destruct H as [->|H]; [exists b; split; [left; reflexivity|exact Eb]|]. destruct (IH H) as [b' [H1 H2]]. exists b'. split; [right; exact H1|exact H2].
Qed.
Theorem c97_peer : forall h a x v, peer_of (after_all ast0 h) a x = Some v -> pv_keyhandle v <> [] ->
  exists h1 c h2 cfg own l, let s := after_all ast0 h1 in
    h = h1 ++ c :: h2 /\ own_of s a = Some (cfg, own) /\ did s (after s c) l /\ told_in l cfg a (pv_keydata v) (pv_keyhandle v).
Proof.
  intros h a x v Hp Hn. set (s := after_all ast0 h) in *. assert (Hr : reachable s) by (apply reachable_after_all, reachable_init).
  pose proof (WF_reachable s Hr) as Hw. destruct (peer_of_some s a x v Hw Hp) as [He ->]. cbn [view_of pv_keyhandle pv_keydata] in *.
  assert (Ha : isalnum a = true) by (apply (exists_isalnum s); assumption).
  change (behind h a (public_keydata (peer_log s a (norm x))) (public_keyhandle (peer_log s a (norm x)))).
  assert (Hb : exists b, In b (peer_log s a (norm x)) /\ keyed (bl_entry b) (public_keydata (peer_log s a (norm x))) (public_keyhandle (peer_log s a (norm x)))).
  { unfold public_keyhandle, public_keydata in *. unfold entry_for_encryption in *. destruct (has_direct_key (peer_log s a (norm x))).
    - destruct (latest_ac_entry (peer_log s a (norm x))) as [e|] eqn:Hl; [|destruct (Hn eq_refl)]. cbn [option_map] in *.
      destruct (msg_block _ _ (latest_ac_in _ _ Hl)) as [b [H1 H2]]. exists b. split; [exact H1|]. rewrite H2. split; reflexivity.
    - destruct (latest_gossip_entry (peer_log s a (norm x))) as [e|] eqn:Hl; [|destruct (Hn eq_refl)]. cbn [option_map] in *.
      destruct (gossip_block _ _ (latest_gossip_in _ _ Hl)) as [b [H1 H2]]. exists b. split; [exact H1|]. rewrite H2. split; reflexivity. }
  destruct Hb as [b [Hb Hk]]. set (kd := public_keydata (peer_log s a (norm x))) in *. set (kh := public_keyhandle (peer_log s a (norm x))) in *. clearbody kd kh.
  destruct (history_entries h _ _ Hb) as [Hu|[a' [x' [kd' [kh' [H1 [H2 [H3 H4]]]]]]]].
  - exfalso. destruct (bl_entry b); try destruct Hk; cbn [unkeyed] in Hu; congruence.
  - apply peer_chain_inj in H1 as [<- _]; [|assumption..].
    assert (kd' = kd /\ kh' = kh) as [-> ->] by (destruct (bl_entry b); try destruct H3; destruct Hk, H3; split; congruence). exact H4.
Qed.
End ToldProofs3.
