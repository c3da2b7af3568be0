(** Proofs of C43, C45-C48: address lookup, account names, destroying, unknown accounts, version. *)
From Verif Require Import Base PyStr Env Prog Chain Gpg Mime States Recommendation Account Cmdline Bot Fs Api Steps StepFacts Exec ApiScope
  Spec PeerSpec OutSpec AcctSpec Obs PeerFacts Quiet OutProofs AcctFacts AcctProofs.
From Coq Require Import Sorting.Sorted.

Section AcctProofs2.
Context {E : Env}.

(** ** C43 *)
Lemma sorted_split l a : StronglySorted before l -> In a l -> exists pre post, l = pre ++ a :: post /\ forall b, In b pre <-> In b l /\ before b a.
Proof.
  induction 1 as [|x l Hs IH Hf]; intros Hi; [destruct Hi|]. rewrite Forall_forall in Hf. destruct (text_eqb_spec x a) as [->|Hx].
  - exists [], l. split; [reflexivity|]. intros b. split; [intros []|]. intros [[<-|Hb] H]; [destruct (before_irrefl _ H)|].
    apply Hf in Hb. exfalso. eapply before_irrefl, before_trans; eauto.
  - destruct Hi as [->|Hi]; [congruence|]. destruct (IH Hi) as [pre [post [-> Hb]]]. exists (x :: pre), post. split; [reflexivity|].
    intros b. simpl. rewrite Hb. split.
    + intros [<-|[H1 H2]]; [split; [auto|]|auto]. apply Hf, in_or_app. right; left; reflexivity.
    + intros [[<-|H1] H2]; auto.
Qed.
Lemma loop_step s n c kh names adr : WF s -> own_of s n = Some (c, kh) ->
  arun (account_loop (n :: names) adr) s =
  match re_match (cf_regex c) adr with Ok true => (s, Ok (Some n)) | Ok false => arun (account_loop names adr) s | Err e => (s, Err e) end.
Proof.
  intros Hw Ho. pose proof (own_exists _ _ _ _ Hw Ho) as He. apply own_of_some in Ho; auto. destruct Ho as [Hc _].
  cbn [account_loop]. rewrite arun_bind, arun_get_account, arun_bind, arun_own_config, Hc, arun_bind by auto.
  destruct (re_match (cf_regex c) adr) as [[]|e]; reflexivity.
Qed.
Lemma loop_found s adr a pre post : WF s -> Forall (misses s adr) pre -> matches s adr a ->
  arun (account_loop (pre ++ a :: post) adr) s = (s, Ok (Some a)).
Proof.
  intros Hw Hp [c [kh [Ho Hm]]]. induction Hp as [|n pre [c' [kh' [Ho' Hm']]] Hp IH]; simpl app.
  - rewrite (loop_step _ _ _ _ _ _ Hw Ho), Hm. reflexivity.
  - rewrite (loop_step _ _ _ _ _ _ Hw Ho'), Hm'. exact IH.
Qed.
Lemma loop_none s adr l : WF s -> Forall (misses s adr) l -> arun (account_loop l adr) s = (s, Ok None).
Proof.
  intros Hw Hp. induction Hp as [|n pre [c' [kh' [Ho' Hm']]] Hp IH]; [reflexivity|].
  rewrite (loop_step _ _ _ _ _ _ Hw Ho'), Hm'. exact IH.
Qed.
Lemma loop_inv s adr l r : WF s -> snd (arun (account_loop l adr) s) = Ok r ->
  match r with
  | Some a => exists pre post, l = pre ++ a :: post /\ Forall (misses s adr) pre /\ matches s adr a
  | None => Forall (misses s adr) l
  end.
Proof.
  intros Hw. induction l as [|n l IH]; intros H.
  - injection H as <-. constructor.
  - destruct (exists_acct_dec s n) as [He|He].
    + apply has_account_exists in He; auto. unfold has_account in He. destruct (own_of s n) as [[c kh]|] eqn:Ho; [|congruence].
      rewrite (loop_step _ _ _ _ _ _ Hw Ho) in H. destruct (re_match (cf_regex c) adr) as [[]|e] eqn:Em; [| |discriminate].
      * injection H as <-. exists [], l. split; [reflexivity|]. split; [constructor|]. exists c, kh. auto.
      * specialize (IH H). assert (Hm : misses s adr n) by (exists c, kh; auto). destruct r as [a|].
        { destruct IH as [pre [post [-> [H1 H2]]]]. exists (n :: pre), post. auto. }
        { constructor; auto. }
    + cbn [account_loop] in H. rewrite arun_bind, arun_get_account_none in H by auto. discriminate.
Qed.
Lemma loop_state s adr l : WF s -> (forall a, In a l -> has_account s a) -> fst (arun (account_loop l adr) s) = s.
Proof.
  intros Hw. induction l as [|n l IH]; intros H; [reflexivity|]. pose proof (H n (or_introl eq_refl)) as Ho. unfold has_account in Ho.
  destruct (own_of s n) as [[c kh]|] eqn:Hn; [|congruence]. rewrite (loop_step _ _ _ _ _ _ Hw Hn).
  destruct (re_match _ _) as [[]|]; [reflexivity| |reflexivity]. apply IH. intros; apply H; right; assumption.
Qed.
Lemma arun_names s : arun list_account_names s = (s, Ok (accounts_of s)). Proof. reflexivity. Qed.
Lemma first_split s adr a : WF s -> first_of s adr a <-> exists pre post, accounts_of s = pre ++ a :: post /\ Forall (misses s adr) pre /\ matches s adr a.
Proof.
  intros Hw. pose proof (accounts_strict s Hw) as Hs. split.
  - intros [Hi [Hm Hb]]. destruct (sorted_split _ a Hs Hi) as [pre [post [He Hp]]]. exists pre, post. split; [exact He|]. split; [|exact Hm].
    apply Forall_forall. intros b Hbp. apply Hp in Hbp. apply Hb; apply Hbp.
  - intros [pre [post [He [Hf Hm]]]]. rewrite Forall_forall in Hf. unfold first_of. rewrite He in *.
    split; [apply in_or_app; right; left; reflexivity|]. split; [exact Hm|]. intros b Hb Hba. apply Hf. apply in_app_or in Hb.
    destruct Hb as [Hb|[<-|Hb]]; [exact Hb|destruct (before_irrefl _ Hba)|].
    exfalso. clear - Hs Hb Hba. induction pre as [|x pre IH]; simpl in Hs.
    + inversion Hs as [|? ? H1 H2]; subst. rewrite Forall_forall in H2. eapply before_irrefl, before_trans; eauto.
    + inversion Hs; subst. auto.
Qed.
Lemma find_run s adr r : arun (get_account_from_emailadr adr r) s =
  arun (x <- account_loop (accounts_of s) adr ;; match x with Some a => Ret (Some a) | None => if r then Raise AccountNotFound else Ret None end) s.
Proof. unfold get_account_from_emailadr. rewrite arun_bind, arun_names. reflexivity. Qed.
Lemma find_found s adr r a : WF s -> first_of s adr a -> arun (get_account_from_emailadr adr r) s = (s, Ok (Some a)).
Proof.
  intros Hw Hf. apply first_split in Hf; auto. destruct Hf as [pre [post [He [Hm Ha]]]].
  rewrite find_run, He, arun_bind, loop_found by auto. reflexivity.
Qed.
Lemma find_none s adr r : WF s -> none_of s adr ->
  arun (get_account_from_emailadr adr r) s = (s, if r then Err AccountNotFound else Ok None).
Proof.
  intros Hw Hn. rewrite find_run, arun_bind, loop_none; auto; [destruct r; reflexivity|]. apply Forall_forall. exact Hn.
Qed.
Lemma c43_found s adr r a : reachable s -> answer s (AFind adr r) = Ok (OOptText (Some a)) <-> first_of s adr a.
Proof.
  intros Hr. pose proof (WF_reachable s Hr) as Hw. unfold answer. cbn [exec]. split.
  - rewrite arun_bind, find_run, arun_bind. destruct (arun (account_loop (accounts_of s) adr) s) as [s1 [[b|]|e]] eqn:El; try discriminate.
    + intros [= <-]. apply first_split; auto. apply (loop_inv s adr (accounts_of s) (Some b) Hw). rewrite El. reflexivity.
    + destruct r; discriminate.
  - intros Hf. rewrite arun_bind, find_found with (a := a) by auto. reflexivity.
Qed.
Lemma c43_none s adr : reachable s -> answer s (AFind adr false) = Ok (OOptText None) <-> none_of s adr.
Proof.
  intros Hr. pose proof (WF_reachable s Hr) as Hw. unfold answer. cbn [exec]. split.
  - rewrite arun_bind, find_run, arun_bind. destruct (arun (account_loop (accounts_of s) adr) s) as [s1 [[b|]|e]] eqn:El; try discriminate.
    intros _. unfold none_of. apply Forall_forall. apply (loop_inv s adr (accounts_of s) None Hw). rewrite El. reflexivity.
  - intros Hf. rewrite arun_bind, find_none by auto. reflexivity.
Qed.
Lemma c43_raises s adr : reachable s -> none_of s adr -> answer s (AFind adr true) = Err AccountNotFound.
Proof. intros Hr Hn. unfold answer. cbn [exec]. rewrite arun_bind, find_none by (auto using WF_reachable). reflexivity. Qed.

Definition regex_of (s : ast) (a : text) : text := match config_of s a with Some c => cf_regex c | None => [] end.
Lemma regexes s l : WF s -> (forall a, In a l -> has_account s a) ->
  arun (mapM (fun n => a <- get_account n true ;; c <- own_config a ;; Ret (cf_regex c, a)) l) s = (s, Ok (map (fun a => (regex_of s a, a)) l)).
Proof.
  intros Hw. induction l as [|n l IH]; intros H; [reflexivity|]. cbn [mapM map].
  pose proof (H n (or_introl eq_refl)) as He. apply has_account_exists in He; auto.
  rewrite arun_bind, arun_bind, arun_get_account by auto. rewrite arun_bind, arun_own_config. unfold regex_of at 1. destruct He as [c [k [Hc _]]]. rewrite Hc.
  change (arun (Ret (cf_regex c, n)) s) with (s, @Ok (text * text) (cf_regex c, n)). cbv iota beta.
  rewrite arun_bind, IH by (intros; apply H; right; assumption). reflexivity.
Qed.
Lemma regex_own s a c kh : WF s -> own_of s a = Some (c, kh) -> regex_of s a = cf_regex c.
Proof. intros Hw Ho. apply own_of_some in Ho; auto. destruct Ho as [Hc _]. unfold regex_of. rewrite Hc. reflexivity. Qed.
Lemma first_match_found s adr a pre post : WF s -> Forall (misses s (lower adr)) pre -> matches s (lower adr) a ->
  first_match (map (fun a => (regex_of s a, a)) (pre ++ a :: post)) adr = Ok (Some a).
Proof.
  intros Hw Hp [c [kh [Ho Hm]]]. induction Hp as [|n pre [c' [kh' [Ho' Hm']]] Hp IH]; cbn [app map first_match].
  - rewrite (regex_own _ _ _ _ Hw Ho), Hm. reflexivity.
  - rewrite (regex_own _ _ _ _ Hw Ho'), Hm'. exact IH.
Qed.
Lemma first_match_none s adr l : WF s -> Forall (misses s (lower adr)) l -> first_match (map (fun a => (regex_of s a, a)) l) adr = Ok None.
Proof.
  intros Hw Hp. induction Hp as [|n pre [c' [kh' [Ho' Hm']]] Hp IH]; cbn [app map first_match]; [reflexivity|].
  rewrite (regex_own _ _ _ _ Hw Ho'), Hm'. exact IH.
Qed.
Lemma match_addrs_skip s l1 l2 : WF s -> (forall x, In x l1 -> none_of s (lower x)) ->
  match_addrs (map (fun a => (regex_of s a, a)) (accounts_of s)) (l1 ++ l2) = match_addrs (map (fun a => (regex_of s a, a)) (accounts_of s)) l2.
Proof.
  intros Hw. induction l1 as [|x l1 IH]; intros H; [reflexivity|]. cbn [app match_addrs].
  rewrite first_match_none; auto; [apply IH; intros; apply H; right; auto|]. apply Forall_forall. apply (H x). left; reflexivity.
Qed.
Lemma c43_route s m l1 adr l2 a : reachable s -> complete s -> targets m = l1 ++ adr :: l2 ->
  (forall x, In x l1 -> none_of s (lower x)) -> first_of s (lower adr) a ->
  answer s (ARoute m) = Ok (OText a) /\ after s (ARoute m) = s.
Proof.
  intros Hr Hc Ht Hn Hf. pose proof (WF_reachable s Hr) as Hw. unfold answer, after. cbn [exec]. unfold get_matching_account.
  rewrite !arun_bind, arun_names, arun_bind, regexes by auto. change (get_target_emailadr m) with (targets m). rewrite Ht, match_addrs_skip by auto.
  apply first_split in Hf; auto. destruct Hf as [pre [post [He [Hm Ha]]]]. cbn [match_addrs]. rewrite He, first_match_found by auto.
  auto.
Qed.
(** the address in the Delivered-To header *)
Lemma c43_delivered s m : reachable s -> complete s -> (forall x, In x (targets m) -> none_of s (lower x)) ->
  after s (ARoute m) = s /\
  (delivered m = [] -> answer s (ARoute m) = Err ValueError) /\
  (delivered m <> [] -> forall a, first_of s (delivered m) a -> answer s (ARoute m) = Ok (OText a)) /\
  (delivered m <> [] -> none_of s (delivered m) -> answer s (ARoute m) = Err AccountNotFound).
Proof.
  intros Hr Hc Hn. pose proof (WF_reachable s Hr) as Hw.
  assert (H : forall B (f : text -> prog cop B), arun (a <- get_matching_account m ;; f a) s = arun (a <- (delivto <- lift (get_delivered_to m None) ;;
    r' <- get_account_from_emailadr delivto true ;; match r' with Some a => Ret a | None => Raise AccountNotFound end) ;; f a) s).
  { intros B f. unfold get_matching_account. rewrite !arun_bind, arun_names, arun_bind, regexes by auto. change (get_target_emailadr m) with (targets m).
    rewrite <- (app_nil_r (targets m)), match_addrs_skip by auto. cbn [match_addrs lift bind]. rewrite arun_bind. reflexivity. }
  unfold answer, after. cbn [exec]. rewrite H. unfold get_delivered_to. fold (delivered m).
  destruct (delivered m) as [|x d] eqn:Ed.
  - split; [reflexivity|]. split; [reflexivity|]. split; congruence.
  - cbn [nonempty]. rewrite <- Ed. cbn [lift]. cbn [bind]. split; [|split; [congruence|split]].
    + rewrite !arun_bind, find_run, arun_bind.
      pose proof (loop_state s (delivered m) (accounts_of s) Hw Hc) as Hq.
      destruct (arun (account_loop (accounts_of s) (delivered m)) s) as [s1 [[b|]|e]]; cbn [fst] in Hq; subst s1; reflexivity.
    + intros _ a Hf. rewrite !arun_bind, find_found with (a := a) by auto. reflexivity.
    + intros _ Hf. rewrite !arun_bind, find_none by auto. reflexivity.
Qed.

(** ** C45, C47 *)
Lemma c47 s c n : reachable s -> names c = Some n -> creates c = None -> isalnum n = true -> ~ has_account s n ->
  answer s c = Err AccountNotFound /\ same_everything s (after s c).
Proof.
  intros Hr Hn Hc Ha He. pose proof (WF_reachable s Hr) as Hw. rewrite has_account_exists in He by auto.
  unfold answer, after. rewrite (unknown_run s c n He Hn Hc), Ha. split; [reflexivity|]. apply inited_same, Hw.
Qed.
Lemma c45_refused s c n : reachable s -> names c = Some n -> isalnum n = false ->
  answer s c = Err AssertionError /\ same_everything s (after s c).
Proof.
  intros Hr Hn Ha. pose proof (WF_reachable s Hr) as Hw.
  assert (He : ~ exists_acct s n) by (intros H; apply exists_isalnum in H; auto; congruence).
  destruct (creates c) as [[n' mode]|] eqn:Hc.
  - assert (n' = n) by (destruct c; simpl in *; try discriminate; congruence). subst n'.
    destruct (add_state s c n mode Hc) as [regex [kh [bin [_ [_ [_ Herr]]]]]]. cbv zeta in Herr.
    unfold add_account in Herr. rewrite arun_bind, arun_get_account_nocheck, Ha in Herr. fold (inited s) in Herr.
    destruct (Herr _ eq_refl) as [H1 H2]. split; [exact H1|]. rewrite H2. apply inited_same, Hw.
  - unfold answer, after. rewrite (unknown_run s c n He Hn Hc), Ha. split; [reflexivity|]. apply inited_same, Hw.
Qed.
Lemma isalnum_ascii a x : isalnum a = true -> In x a -> is_ascii_cp x = true -> ascii_alnum_cp x = true.
Proof.
  unfold isalnum. intros H Hx Hs. apply andb_prop in H. destruct H as [_ H]. rewrite forallb_forall in H. specialize (H x Hx).
  unfold isalnum_cp in H. rewrite Hs in H. exact H.
Qed.
Lemma c45_home s a : reachable s -> In a (accounts_of s) ->
  own_gpghome a = basedir ++ L "/gpg/" ++ a /\ a <> [] /\ ~ In 47%N a /\ ~ In 46%N a.
Proof.
  intros Hr Ha. apply accounts_alnum in Ha; [|apply WF_reachable, Hr]. split; [reflexivity|]. split; [apply isalnum_nonempty, Ha|].
  split; intros H; apply (isalnum_ascii a _ Ha) in H; try reflexivity; discriminate.
Qed.
Lemma c45_distinct a b : own_gpghome a = own_gpghome b -> a = b.
Proof. unfold own_gpghome. intros H. apply app_inv_head in H. apply app_inv_head in H. exact H. Qed.

(** ** C48 *)
Lemma scope_rm c : api_scope c LRm -> deletes_all c = true.
Proof.
  intros H. destruct c; simpl in H; unfold sc_a, sc_gpg, sc_any, sc_mod in H; try discriminate; try tauto;
    try (destruct H as [H|H]; try discriminate; try tauto; fail).
  - destruct H as [H|[a [_ H]]]; [discriminate|destruct H].
  - destruct H as [H|[a [t [m [_ H]]]]]; [destruct H|destruct H].
  - destruct H as [H|[a H]]; [destruct H|destruct H].
Qed.
Lemma version_step s l : l <> LRm -> version_of s <> None -> alog (step l s) mgr_chain = alog s mgr_chain.
Proof.
  intros Hl Hv.
  assert (H : forall x, ~ writes x mgr_chain -> alog (step x s) mgr_chain = alog s mgr_chain) by (intros; apply step_frame; assumption).
  destruct l; try (apply H; simpl; intros H0; first [exact H0 | symmetry in H0; eapply own_mgr; eauto; fail
    | symmetry in H0; eapply oob_mgr; eauto; fail | symmetry in H0; eapply peer_mgr; eauto; fail]).
  - unfold step. cbn [step_prog]. rewrite set_version_run. destruct (version_of s); [reflexivity|congruence].
  - apply H. simpl. rewrite match_account_mgr. discriminate.
  - congruence.
Qed.
Lemma version_path s ls s' : path s ls s' -> ~ In LRm ls -> version_of s <> None -> alog s' mgr_chain = alog s mgr_chain.
Proof.
  induction 1 as [|s l ls s' Hg Hp IH]; intros Hn Hv; [reflexivity|].
  assert (H1 : alog (step l s) mgr_chain = alog s mgr_chain) by (apply version_step; auto; intros ->; apply Hn; left; reflexivity).
  rewrite <- H1. apply IH; [intros H; apply Hn; right; exact H|]. unfold version_of. rewrite H1. exact Hv.
Qed.
Lemma version_some s : WF s -> version_of s <> None <-> version_log s <> [].
Proof.
  intros Hw. pose proof (wf_mgr s Hw) as H. unfold version_log. change (L ".") with mgr_chain. unfold version_of in *.
  destruct (alog s mgr_chain) as [|b l] eqn:El; [simpl; tauto|]. split; [discriminate|]. intros _.
  destruct (hd_error _) eqn:Eh; [discriminate|]. unfold alog in El. rewrite H in El. discriminate.
Qed.
Lemma c48_form s : reachable s -> version_log s = [] \/ exists t, version_log s = [Block t (EACfg (ACfgEntry (L "0.1")))].
Proof.
  intros Hr. pose proof (WF_reachable s Hr) as Hw. unfold version_log. change (L ".") with mgr_chain. unfold alog.
  destruct (dget (a_logs s) mgr_chain) as [l|] eqn:Eg; [|left; reflexivity]. apply (wf_logs s Hw) in Eg. apply log_ok_mgr in Eg. auto.
Qed.
Lemma c48_once s c : reachable s -> version_log s <> [] -> deletes_all c = false -> version_log (after s c) = version_log s.
Proof.
  intros Hr Hv Hd. pose proof (WF_reachable s Hr) as Hw. destruct (after_path s c Hw) as [ls [Hp HF]]. rewrite Forall_forall in HF.
  apply (version_path s ls _ Hp); [|apply version_some; auto]. intros H. apply HF, scope_rm in H. congruence.
Qed.
Lemma c48_history s h : reachable s -> version_log s <> [] -> (forall c, In c h -> deletes_all c = false) -> version_log (after_all s h) = version_log s.
Proof.
  revert s. induction h as [|c h IH]; intros s Hr Hv Hd; [reflexivity|]. rewrite after_all_cons.
  assert (H1 : version_log (after s c) = version_log s) by (apply c48_once; auto; apply Hd; left; reflexivity).
  rewrite <- H1. apply IH; [apply reachable_after, Hr|congruence|]. intros; apply Hd; right; assumption.
Qed.
Lemma inited_version s : version_of (inited s) <> None.
Proof.
  unfold inited. rewrite arun_ensure_init. destruct (version_of s) eqn:Ev; cbn [fst]; [congruence|].
  unfold version_of. rewrite alog_app, text_eqb_refl. discriminate.
Qed.
Lemma inited_WF s : WF s -> WF (inited s).
Proof.
  intros Hw. unfold inited. destruct (inv_ensure_init (fun _ => True) (fun _ => True)) with (s := s) as [[ls [_ [_ [H _]]]] _]; auto.
  intros ? ? ? ? ? ?; exact I.
Qed.
Lemma c48_first s c n : reachable s -> names c = Some n -> version_log (after s c) <> [].
Proof.
  intros Hr Hn. pose proof (WF_reachable s Hr) as Hw. destruct (version_of s) as [v|] eqn:Ev.
  - assert (Hv : version_log s <> []) by (apply version_some; auto; congruence). rewrite c48_once; auto.
    destruct c; simpl in *; try discriminate; reflexivity.
  - assert (He : ~ exists_acct s n) by (intros H; apply exists_version in H; auto).
    apply version_some; [apply WF_after, Hw|].
    destruct (creates c) as [[n' mode]|] eqn:Hc.
    + assert (n' = n) by (destruct c; simpl in *; try discriminate; congruence). subst n'.
      destruct (add_state s c n mode Hc) as [regex [kh [bin [_ [Hl _]]]]]. cbv zeta in Hl. unfold version_of. rewrite Hl.
      destruct (isalnum n) eqn:Ha.
      * rewrite add_run by auto. rewrite arun_bind.
        destruct (triple_create n (default_regex regex) kh bin mode Ha (inited s) (inited_WF s Hw)) as [[ls [Hp [HF _]]] _].
        { split; [|apply inited_version]. unfold keygen_of. rewrite inited_own. apply keygen_none; auto. }
        pose proof (version_path _ _ _ Hp) as H. pose proof (inited_version s) as Hv.
        destruct (arun (create n (default_regex regex) kh bin mode) (inited s)) as [s1 [u|e]]; cbn [fst arun run] in *;
          (rewrite H; [exact Hv| |exact Hv]); rewrite Forall_forall in HF; intros Hx; apply HF in Hx; destruct Hx.
      * unfold add_account. rewrite arun_bind, arun_get_account_nocheck, Ha. apply inited_version.
    + unfold after. rewrite (unknown_run s c n He Hn Hc). apply inited_version.
Qed.
Lemma c48_present s a : reachable s -> In a (accounts_of s) -> version_log s <> [].
Proof.
  intros Hr Ha. pose proof (WF_reachable s Hr) as Hw. apply version_some; auto. apply accounts_In in Ha; auto.
  apply (config_version s Hw a). destruct (wf_own s Hw a) as [H|[_ H]]; [congruence|]. apply own_ok_config in H.
  destruct H as [c [H _]]. unfold config_of. congruence.
Qed.

(** ** C46 *)
Definition alike (s s' : ast) : Prop :=
  a_logs s' = a_logs s /\ a_tick s' = a_tick s /\ a_uuid s' = a_uuid s /\ forall h, ring_at (a_rings s') h = ring_at (a_rings s) h.
Lemma ring_at_dset rs h r h' : ring_at (dset rs h r) h' = if text_eqb h h' then r else ring_at rs h'.
Proof. unfold ring_at. rewrite dget_dset. destruct (text_eqb_spec h h'), (text_eqb_spec h' h); congruence. Qed.
Lemma ring_at_remove rs h : ring_at (dremove_if nonempty rs) h = if nonempty h then ring0 else ring_at rs h.
Proof. unfold ring_at. rewrite dget_dremove_if. destruct (nonempty h); reflexivity. Qed.
Lemma alike_step X (o : cop X) s s' : alike s s' -> alike (fst (astep o s)) (fst (astep o s')) /\ snd (astep o s') = snd (astep o s).
Proof.
  intros [H1 [H2 [H3 H4]]]. destruct o; cbn [astep fst snd]; unfold alike, alog; cbn [a_logs a_tick a_uuid a_rings]; rewrite ?H1, ?H2, ?H3; auto 10.
  - split; [|reflexivity]. do 3 (split; [reflexivity|]). intros h. rewrite !ring_at_remove. destruct (nonempty h); auto.
  - rewrite (H4 (argv_home argv)). destruct (gpg _ _ _ _) as [r' res]. cbn [fst snd a_logs a_tick a_uuid a_rings].
    rewrite ?H1, ?H2, ?H3. split; [|reflexivity]. do 3 (split; [reflexivity|]). intros h. rewrite !ring_at_dset. destruct (text_eqb _ _); auto.
Qed.
Lemma alike_run {A} (p : prog cop A) s s' : alike s s' -> alike (fst (arun p s)) (fst (arun p s')) /\ snd (arun p s') = snd (arun p s).
Proof.
  unfold arun. revert s s'. induction p as [a|e|X o k IH]; intros s s' H; cbn [run]; auto.
  destruct (alike_step X o s s' H) as [H1 H2]. destruct (astep o s) as [s1 x], (astep o s') as [s2 y]. cbn [fst snd] in *. subst y. apply IH, H1.
Qed.
Lemma alike_session h s s' : alike s s' -> snd (session h s') = snd (session h s).
Proof.
  revert s s'. induction h as [|c h IH]; intros s s' H; [reflexivity|]. cbn [session]. destruct (alike_run (exec c) s s' H) as [H1 H2].
  destruct (arun (exec c) s) as [s1 r], (arun (exec c) s') as [s2 r']. cbn [fst snd] in *. subst r'. specialize (IH s1 s2 H1).
  destruct (session h s1), (session h s2). cbn [snd] in *. congruence.
Qed.
Lemma c46_run s c : WF s -> destroys s c -> (exists x, answer s c = Ok x) /\
  after s c = AState [] (dremove_if nonempty (a_rings s)) (a_tick s) (a_uuid s) (a_trace s).
Proof.
  intros Hw [-> |[-> Hv]]; unfold answer, after; cbn [exec]; [split; [eexists; reflexivity|reflexivity]|].
  apply version_some in Hv; auto. unfold cli_destroy_all.
  assert (H : arun mgr_version s = (s, Ok (option_map ac_version (version_of s)))) by reflexivity. rewrite !arun_bind, H.
  destruct (version_of s); [|congruence]. split; [eexists; reflexivity|reflexivity].
Qed.
Lemma c46_nothing s c : reachable s -> destroys s c -> let s' := after s c in
  (exists x, answer s c = Ok x) /\ accounts_of s' = [] /\ version_log s' = [] /\
  (forall a, own_of s' a = None /\ peers_of s' a = None /\ forall x, peer_of s' a x = None /\ verif_of s' a x = None) /\
  ring_content s' [] = ring_content s [] /\ (forall h, h <> [] -> ring_content s' h = ring0) /\ a_trace s' = a_trace s.
Proof.
  intros Hr Hc. cbv zeta. destruct (c46_run s c (WF_reachable s Hr) Hc) as [H1 H2]. split; [exact H1|]. rewrite H2. clear H1 H2.
  assert (He : forall a, ~ exists_acct (AState [] (dremove_if nonempty (a_rings s)) (a_tick s) (a_uuid s) (a_trace s)) a).
  { intros a [c0 [k [H _]]]. discriminate H. }
  split; [reflexivity|]. split; [reflexivity|]. split; [|split; [|split]].
  - intros a. split; [|split; [apply peers_of_none, He|intros x; split; [apply peer_of_none, He|apply verif_of_none, He]]].
    unfold own_of, answer. cbn [exec]. rewrite arun_with_account_none by apply He. reflexivity.
  - unfold ring_content. cbn [a_rings]. rewrite ring_at_remove. reflexivity.
  - intros h Hh. unfold ring_content. cbn [a_rings]. rewrite ring_at_remove. destruct h; [congruence|reflexivity].
  - reflexivity.
Qed.
Lemma c46_fresh s c h : reachable s -> destroys s c -> snd (session h (after s c)) = snd (session h (empty_directory s)).
Proof.
  intros Hr Hc. destruct (c46_run s c (WF_reachable s Hr) Hc) as [_ ->]. apply alike_session. unfold alike, empty_directory. cbn [a_logs a_tick a_uuid a_rings].
  do 3 (split; [reflexivity|]). intros h'. rewrite ring_at_remove. unfold ring_at at 2. cbn [dget].
  destruct h' as [|x h']; [reflexivity|]. destruct (text_eqb_spec [] (x :: h')); [discriminate|reflexivity].
Qed.
Lemma c46_cancel s : answer s (ACliDestroy false) = Ok (OBool false) /\ after s (ACliDestroy false) = s.
Proof. split; reflexivity. Qed.

End AcctProofs2.
