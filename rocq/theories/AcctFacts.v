(** Facts about listed accounts and peers, and what a call does not touch. *)
From Verif Require Import Base PyStr Env Prog Chain Gpg Mime States Recommendation Account Cmdline Bot Fs Api Steps StepFacts Exec ApiScope
  Spec PeerSpec AcctSpec Obs PeerFacts.
From Coq Require Import Sorting.Sorted Sorting.Permutation.

Section AcctFacts.
Context {E : Env}.

(** ** Sorted lists without duplicates are determined by their elements *)
Lemma before_trans a b c : before a b -> before b c -> before a c.
Proof.
  intros [H1 H2] [H3 H4]. split; [eapply text_leb_trans; eauto|]. intros ->. apply H4.
  apply text_leb_antisym; auto.
Qed.
Lemma before_irrefl a : ~ before a a. Proof. intros [_ H]. congruence. Qed.
Lemma strict_sorted l : NoDup l -> StronglySorted before (sorted l).
Proof.
  intros Hn. pose proof (sorted_sorted l) as Hs. pose proof (Permutation_NoDup (sorted_perm l) Hn) as Hd.
  revert Hs Hd. generalize (sorted l). clear l Hn. induction l as [|x l IH]; intros Hs Hd; [constructor|].
  apply StronglySorted_inv in Hs. destruct Hs as [Hs Hf]. inversion Hd; subst. constructor; auto.
  rewrite Forall_forall in *. intros y Hy. split; [apply Hf; exact Hy|]. intros ->. contradiction.
Qed.
Lemma strict_unique l k : StronglySorted before l -> StronglySorted before k -> (forall x, In x l <-> In x k) -> l = k.
Proof.
  revert k; induction l as [|x l IH]; intros k Hl Hk Hi.
  - destruct k as [|y k]; [reflexivity|]. exfalso. apply (Hi y). left; reflexivity.
  - apply StronglySorted_inv in Hl. destruct Hl as [Hl Hx]. rewrite Forall_forall in Hx.
    destruct k as [|y k]; [exfalso; apply (Hi x); left; reflexivity|].
    apply StronglySorted_inv in Hk. destruct Hk as [Hk Hy]. rewrite Forall_forall in Hy.
    assert (Hxy : x = y).
    { destruct (proj1 (Hi x) (or_introl eq_refl)) as [H|H]; [auto|].
      destruct (proj2 (Hi y) (or_introl eq_refl)) as [H'|H']; [auto|].
      exfalso. apply (before_irrefl x). eapply before_trans; [apply Hx; exact H'|apply Hy; exact H]. }
    subst y. f_equal. apply IH; auto. intros z. split; intros Hz.
    + destruct (proj1 (Hi z) (or_intror Hz)) as [<-|]; auto. exfalso. eapply before_irrefl, Hx, Hz.
    + destruct (proj2 (Hi z) (or_intror Hz)) as [<-|]; auto. exfalso. eapply before_irrefl, Hy, Hz.
Qed.
Lemma strict_filter f l : StronglySorted before l -> StronglySorted before (filter f l).
Proof.
  induction 1 as [|x l Hs IH Hf]; simpl; [constructor|]. destruct (f x); [|exact IH]. constructor; [exact IH|].
  rewrite Forall_forall in *. intros y Hy. apply filter_In in Hy. apply Hf, Hy.
Qed.

(** ** Names of logs *)
Lemma startswith_app p x : startswith p (p ++ x) = true.
Proof. induction p as [|c p IH]; simpl; [reflexivity|]. rewrite N.eqb_refl. exact IH. Qed.
Lemma startswith_inv p n : startswith p n = true -> n = p ++ skipn (length p) n.
Proof.
  revert n; induction p as [|c p IH]; intros [|d n]; simpl; try discriminate; auto.
  intros H. apply andb_prop in H. destruct H as [H1 H2]. apply N.eqb_eq in H1. subst d. f_equal. auto.
Qed.
Lemma skipn_app_exact {A} (p x : list A) : skipn (length p) (p ++ x) = x.
Proof. rewrite skipn_app, skipn_all, Nat.sub_diag. reflexivity. Qed.
Lemma with_prefix_In p l x : In x (with_prefix p l) <-> In (p ++ x) l.
Proof.
  unfold with_prefix. rewrite in_map_iff. split.
  - intros [n [<- H]]. apply filter_In in H. destruct H as [H1 H2]. apply startswith_inv in H2. rewrite <- H2. exact H1.
  - intros H. exists (p ++ x). split; [apply skipn_app_exact|]. apply filter_In. split; [exact H|apply startswith_app].
Qed.
Lemma with_prefix_NoDup p l : NoDup l -> NoDup (with_prefix p l).
Proof.
  intros H. unfold with_prefix. induction l as [|n l IH]; simpl; [constructor|]. inversion H; subst.
  destruct (startswith p n) eqn:Es; [|auto]. simpl. constructor; auto. intros Hi. apply H2.
  change (In (skipn (length p) n) (with_prefix p l)) in Hi. apply with_prefix_In in Hi. rewrite <- startswith_inv in Hi; auto.
Qed.

Lemma log_ok_nonempty n l : log_ok n l -> l <> [].
Proof. intros H. inversion H; subst; try discriminate; auto. match goal with H : own_ok _ _ |- _ => inversion H; discriminate end. Qed.
Lemma key_log s n : WF s -> In n (dkeys (a_logs s)) <-> alog s n <> [].
Proof.
  intros Hw. rewrite <- dget_Some_key. unfold alog. split.
  - intros [l Hl]. rewrite Hl. eapply log_ok_nonempty. eapply (wf_logs s Hw); eauto.
  - destruct (dget (a_logs s) n); [eauto|congruence].
Qed.

(** ** Listed accounts and peers *)
Lemma accounts_In s a : WF s -> In a (accounts_of s) <-> alog s (own_chain a) <> [].
Proof.
  intros Hw. rewrite accounts_of_spec, sorted_In, with_prefix_In.
  change (own_chain [] ++ a) with (own_chain a). apply key_log, Hw.
Qed.
Lemma accounts_strict s : WF s -> StronglySorted before (accounts_of s).
Proof. intros Hw. rewrite accounts_of_spec. apply strict_sorted, with_prefix_NoDup, (wf_nodup s Hw). Qed.
Lemma accounts_alnum s a : WF s -> In a (accounts_of s) -> isalnum a = true.
Proof. intros Hw H. apply accounts_In in H; auto. destruct (wf_own s Hw a) as [H0|[H0 _]]; congruence. Qed.
Lemma accounts_frame s s' : WF s -> WF s' -> (forall a, alog s' (own_chain a) = [] <-> alog s (own_chain a) = []) ->
  accounts_of s' = accounts_of s.
Proof.
  intros Hw Hw' H. apply strict_unique; [apply accounts_strict; auto..|]. intros a. rewrite !accounts_In by auto.
  specialize (H a). tauto.
Qed.
Lemma exists_listed s a : WF s -> exists_acct s a -> In a (accounts_of s).
Proof. intros Hw [c [k [H _]]]. apply accounts_In; auto. intros H0. unfold config_of in H. rewrite H0 in H. discriminate. Qed.
Lemma has_listed s a : WF s -> has_account s a -> In a (accounts_of s).
Proof. intros Hw H. apply exists_listed; auto. apply has_account_exists; auto. Qed.

Lemma peers_In s a x : WF s -> In x (peer_names s a) <-> alog s (peer_chain a x) <> [].
Proof. intros Hw. unfold peer_names. rewrite sorted_In, with_prefix_In. apply key_log, Hw. Qed.
Lemma peers_strict s a : WF s -> StronglySorted before (peer_names s a).
Proof. intros Hw. apply strict_sorted, with_prefix_NoDup, (wf_nodup s Hw). Qed.
Lemma peers_of_none s a : ~ exists_acct s a -> peers_of s a = None.
Proof. intros H. unfold peers_of, answer. cbn [exec]. rewrite arun_with_account_none by auto. reflexivity. Qed.
Lemma own_of_none s a : WF s -> ~ exists_acct s a -> own_of s a = None.
Proof.
  intros Hw H. destruct (own_of s a) as [[c k]|] eqn:Ho; [|reflexivity]. exfalso. apply H. apply has_account_exists; auto.
  unfold has_account. congruence.
Qed.
Lemma peers_of_frame s s' a : WF s -> WF s' -> alog s' (own_chain a) = alog s (own_chain a) ->
  (forall x, alog s' (peer_chain a x) = alog s (peer_chain a x)) -> peers_of s' a = peers_of s a.
Proof.
  intros Hw Hw' Ho Hp. destruct (exists_acct_dec s a) as [He|He].
  - rewrite !peers_of_spec; auto; [|eapply exists_acct_frame; eauto]. f_equal.
    apply strict_unique; [apply peers_strict; auto..|]. intros x. rewrite !peers_In by auto. rewrite Hp. tauto.
  - rewrite !peers_of_none; auto. intros Hc. apply He. eapply exists_acct_frame; [|exact Hc]. auto.
Qed.

(** the logs of an account *)
Definition acct_log (b n : text) : Prop := n = own_chain b \/ n = oob_chain b \/ exists x, n = peer_chain b x.
Lemma same_account_logs s s' b : WF s -> WF s' -> (forall n, acct_log b n -> alog s' n = alog s n) -> same_account s s' b.
Proof.
  intros Hw Hw' H.
  assert (Ho : alog s' (own_chain b) = alog s (own_chain b)) by (apply H; left; reflexivity).
  assert (Hv : alog s' (oob_chain b) = alog s (oob_chain b)) by (apply H; right; left; reflexivity).
  assert (Hp : forall x, alog s' (peer_chain b x) = alog s (peer_chain b x)) by (intros; apply H; right; right; eauto).
  split; [apply own_of_frame; auto|]. split; [apply peers_of_frame; auto|].
  split; intros; [apply peer_of_frame; auto | apply verif_of_frame; auto].
Qed.

(** a step that works on another account leaves the logs of an account alone *)
Definition about (l : label) : option text :=
  match l with
  | LGpg a _ _ _ | LMsg a _ _ _ _ _ _ | LGossip a _ _ _ _ _ | LCfg a _ | LKeygen a _ _ | LVerif a _ | LRemove a => Some a
  | _ => None
  end.
Lemma writes_about s l b n : guard s l -> isalnum b = true -> acct_log b n -> l <> LRm -> writes l n -> about l = Some b.
Proof.
  intros Hg Hb Hn Hr Hw. destruct Hn as [->|[->|[x ->]]]; destruct l; simpl in *; try tauto;
    try (exfalso; first [eapply own_peer; eauto; fail | eapply oob_peer; eauto; fail | eapply own_oob; eauto; fail
                        | eapply own_mgr; eauto; fail | eapply oob_mgr; eauto; fail | eapply peer_mgr; eauto; fail
                        | eapply own_oob; symmetry; eauto; fail | eapply own_peer; symmetry; eauto; fail| eapply oob_peer; symmetry; eauto; fail]).
  - apply own_chain_inj in Hw. congruence.
  - apply own_chain_inj in Hw. congruence.
  - rewrite match_account_own in Hw by auto. apply text_eqb_eq in Hw. congruence.
  - apply oob_chain_inj in Hw. congruence.
  - rewrite match_account_oob in Hw by auto. discriminate.
  - apply peer_chain_inj in Hw; [|exact Hb|apply Hg]. destruct Hw; congruence.
  - apply peer_chain_inj in Hw; [|exact Hb|apply Hg]. destruct Hw; congruence.
  - rewrite match_account_peer in Hw by auto. apply text_eqb_eq in Hw. congruence.
Qed.
(** a name that is not alphanumeric has no logs at all *)
Lemma not_alnum_logs s b n : WF s -> isalnum b = false -> acct_log b n -> n = own_chain b \/ n = oob_chain b -> alog s n = [].
Proof.
  intros Hw Hb _ [->| ->].
  - destruct (wf_own s Hw b) as [H|[H _]]; congruence.
  - unfold alog. destruct (dget (a_logs s) (oob_chain b)) as [l|] eqn:Ed; [|reflexivity].
    apply (wf_logs s Hw) in Ed. apply log_ok_oob in Ed. destruct Ed; congruence.
Qed.
Lemma not_alnum_same s s' b : WF s -> WF s' -> isalnum b = false -> same_account s s' b.
Proof.
  intros Hw Hw' Hb. assert (Hn : forall t, WF t -> ~ exists_acct t b).
  { intros t Ht He. apply exists_isalnum in He; auto. congruence. }
  split; [rewrite !own_of_none; auto|]. split; [rewrite !peers_of_none; auto|].
  split; intros; [rewrite !peer_of_none; auto | rewrite !verif_of_none; auto].
Qed.
Lemma path_logs s ls s' b n : path s ls s' -> isalnum b = true -> acct_log b n ->
  (forall l, In l ls -> l <> LRm /\ about l <> Some b) -> alog s' n = alog s n.
Proof.
  induction 1 as [|s l ls s' Hg Hp IH]; intros Hb Hn Hl; auto.
  rewrite IH by (auto; intros; apply Hl; simpl; auto). apply step_frame. intros Hw.
  destruct (Hl l (or_introl eq_refl)) as [H1 H2]. apply H2. eapply writes_about; eauto.
Qed.
Lemma path_same_account s ls s' b : WF s -> path s ls s' ->
  (forall l, In l ls -> l <> LRm /\ about l <> Some b) -> same_account s s' b.
Proof.
  intros Hw Hp Hl. pose proof (path_WF _ _ _ Hp Hw) as Hw'. destruct (isalnum b) eqn:Hb; [|apply not_alnum_same; auto].
  apply same_account_logs; auto. intros n Hn. eapply path_logs; eauto.
Qed.
Lemma same_account_refl s b : same_account s s b.
Proof. split; [|split; [|split]]; reflexivity. Qed.
Lemma same_account_trans s1 s2 s3 b : same_account s1 s2 b -> same_account s2 s3 b -> same_account s1 s3 b.
Proof.
  intros [H1 [H2 [H3 H4]]] [K1 [K2 [K3 K4]]].
  split; [congruence|]. split; [congruence|]. split; intros; [rewrite K3; apply H3|rewrite K4; apply H4].
Qed.

(** a call that names an account touches no other *)
Lemma scope_names c n l b : names c = Some n -> (forall m, c <> ACliDel m) -> api_scope c l -> b <> n -> l <> LRm /\ about l <> Some b.
Proof.
  intros Hn Hcd Hs Hb. destruct c; simpl in Hn; try discriminate; try (injection Hn as <-); simpl in Hs; unfold sc_a in Hs;
    try (exfalso; eapply Hcd; reflexivity);
    try (subst l; split; [discriminate|discriminate]; fail);
    try (destruct l; simpl in *; try tauto; split; try discriminate; try (intuition congruence); fail);
    try (destruct Hs as [->|Hs]; [split; discriminate|]; destruct l; simpl in *; try tauto; try discriminate; split; try discriminate; intuition congruence).
  destruct name as [n0|]; [|discriminate]. injection Hn as ->. destruct Hs as [->|[a [Ha Hs]]]; [split; discriminate|].
  rewrite (Ha n eq_refl) in Hs. destruct l; simpl in *; try tauto; split; try discriminate; intuition congruence.
Qed.
Lemma names_same s c n b : WF s -> names c = Some n -> (forall m, c <> ACliDel m) -> b <> n -> same_account s (after s c) b.
Proof.
  intros Hw Hn Hcd Hb. destruct (after_path s c Hw) as [ls [Hp HF]]. eapply path_same_account; eauto.
  intros l Hl. rewrite Forall_forall in HF. eapply scope_names; eauto.
Qed.

(** ** Unknown accounts *)
Lemma unknown_run s c n : ~ exists_acct s n -> names c = Some n -> creates c = None ->
  arun (exec c) s = (inited s, Err (if isalnum n then AccountNotFound else AssertionError)).
Proof.
  intros He Hn Hc. pose proof (@arun_get_account_none E s n He) as Hg.
  destruct c; simpl in Hn; try discriminate; try (injection Hn as ->); try discriminate Hc; cbn [exec];
    try (apply arun_with_account_none; exact He).
  - unfold mod_account. rewrite !arun_bind, Hg. reflexivity.
  - unfold del_account. rewrite !arun_bind, Hg. reflexivity.
  - unfold cli_mod_account, mod_account. rewrite !arun_bind, Hg. reflexivity.
  - unfold cli_del_account, del_account. rewrite !arun_bind, Hg. reflexivity.
  - destruct name as [n0|]; [|discriminate]. injection Hn as ->. unfold cli_process_incoming. rewrite !arun_bind, Hg. reflexivity.
  - unfold cli_peerstate. rewrite !arun_bind, Hg. reflexivity.
Qed.
Lemma inited_same s : WF s -> same_everything s (inited s).
Proof.
  intros Hw. assert (Hw' : WF (inited s)).
  { unfold inited. destruct (inv_ensure_init (fun _ => True) (fun _ => True)) with (s := s) as [[ls [_ [_ [H _]]]] _]; auto.
    intros ? ? ? ? ? ?; exact I. }
  assert (Hl : forall n, n <> mgr_chain -> alog (inited s) n = alog s n).
  { intros n Hn. unfold inited. rewrite arun_ensure_init. destruct (version_of s); [reflexivity|]. cbn [fst].
    rewrite alog_app. apply text_eqb_neq in Hn. rewrite Hn. reflexivity. }
  split; [|split; [|split]].
  - apply accounts_frame; auto. intros a. rewrite Hl by apply own_mgr. tauto.
  - intros b. apply same_account_logs; auto. intros n [->|[->|[x ->]]]; apply Hl; [apply own_mgr|apply oob_mgr|apply peer_mgr].
  - unfold inited. rewrite arun_ensure_init. destruct (version_of s); reflexivity.
  - unfold inited. rewrite arun_ensure_init. destruct (version_of s); reflexivity.
Qed.

End AcctFacts.
