(** Calls on an account do not depend on the others: proofs of C67.  [same Q p]: run from two
    related states, [p] has the same result and leads to related states. *)
From Verif Require Import Base PyStr Base64 Env Prog Chain Gpg Mime States Recommendation Account Cmdline Bot Fs Api Steps StepFacts Exec ApiScope
  Spec PeerSpec OutSpec AcctSpec Obs PeerFacts Quiet OutProofs AcctFacts AcctProofs AcctProofs2 Rings IndepSpec.

Section Indep.
Context {E : Env}.

(** log names occur once, and no log is empty *)
Definition tidy (s : ast) : Prop := NoDup (dkeys (a_logs s)) /\ forall n, In n (dkeys (a_logs s)) <-> alog s n <> [].
Lemma tidy_WF s : WF s -> tidy s.
Proof. intros Hw. split; [apply (wf_nodup s Hw)|]. intros n. apply key_log, Hw. Qed.

Variable sys : bool.
Variable a : text.
Definition mode_ok (l : list block) : Prop := sys = false -> forall c, latest_config l = Some c -> cf_mode c = L "own".
Definition rel (s1 s2 : ast) : Prop := alike sys a s1 s2 /\ tidy s1 /\ tidy s2 /\ mode_ok (alog s1 (own_chain a)).

Definition same {A} (Q : A -> Prop) (p : prog cop A) : Prop := forall s1 s2, rel s1 s2 ->
  snd (arun p s1) = snd (arun p s2) /\ rel (fst (arun p s1)) (fst (arun p s2)) /\ (forall v, snd (arun p s1) = Ok v -> Q v).
Notation any := (fun _ => True).

Lemma same_weaken {A} (Q Q' : A -> Prop) p : same Q p -> (forall v, Q v -> Q' v) -> same Q' p.
Proof. intros H HQ s1 s2 HR. destruct (H s1 s2 HR) as [H1 [H2 H3]]. auto. Qed.
Lemma same_ret {A} (Q : A -> Prop) v : Q v -> same Q (Ret v).
Proof. intros H s1 s2 HR. cbn. split; [reflexivity|]. split; [exact HR|]. intros v' [= <-]. exact H. Qed.
Lemma same_raise {A} (Q : A -> Prop) e : same Q (Raise e).
Proof. intros s1 s2 HR. cbn. split; [reflexivity|]. split; [exact HR|]. discriminate. Qed.
Lemma same_lift {A} (r : result A) : same any (lift r).
Proof. destruct r; [apply same_ret; exact I|apply same_raise]. Qed.
Lemma same_assert b : same any (assert_ b).
Proof. destruct b; [apply same_ret; exact I|apply same_raise]. Qed.
Lemma same_bind {A B} (Q1 : A -> Prop) (Q : B -> Prop) (p : prog cop A) (f : A -> prog cop B) :
  same Q1 p -> (forall v, Q1 v -> same Q (f v)) -> same Q (bind p f).
Proof.
  intros Hp Hf s1 s2 HR. destruct (Hp s1 s2 HR) as [H1 [H2 H3]]. rewrite !arun_bind.
  destruct (arun p s1) as [t1 r1], (arun p s2) as [t2 r2]. cbn [fst snd] in *. subst r2. destruct r1 as [v|e].
  - apply Hf; auto.
  - split; [reflexivity|]. split; [exact H2|]. discriminate.
Qed.
Lemma same_catch {A} (Q : A -> Prop) (p : prog cop A) h : same Q p -> (forall e q, h e = Some q -> same Q q) -> same Q (catch p h).
Proof.
  intros Hp Hh s1 s2 HR. destruct (Hp s1 s2 HR) as [H1 [H2 H3]]. unfold arun in *. rewrite !run_catch.
  destruct (run (@astep E) p s1) as [t1 r1], (run (@astep E) p s2) as [t2 r2]. cbn [fst snd] in *. subst r2. destruct r1 as [v|e].
  - cbn [fst snd]. auto.
  - destruct (h e) as [q|] eqn:He; [apply (Hh e q He t1 t2 H2)|]. cbn [fst snd]. split; [reflexivity|]. split; [exact H2|]. discriminate.
Qed.
Lemma same_mapM {A B} (f : A -> prog cop B) l : (forall x, same any (f x)) -> same any (mapM f l).
Proof.
  intros H. induction l as [|x l IH]; cbn [mapM]; [apply same_ret; exact I|].
  eapply same_bind; [apply H|]. intros y _. eapply same_bind; [exact IH|]. intros ys _. apply same_ret. exact I.
Qed.
Lemma same_foldM {A B} (f : B -> A -> prog cop B) l b : (forall b x, same any (f b x)) -> same any (foldM f l b).
Proof.
  intros H. revert b. induction l as [|x l IH]; intros b; cbn [foldM]; [apply same_ret; exact I|].
  eapply same_bind; [apply H|]. intros y _. apply IH.
Qed.

(** ** Operations *)
Lemma same_time : same any (perform CTime).
Proof.
  intros s1 s2 [[H1 [H2 [H3 [H4 [H5 H6]]]]] [T1 [T2 M]]]. unfold arun. cbn [perform run astep fst snd].
  rewrite H5. split; [reflexivity|]. split; [|auto]. split; [repeat split; auto; cbn [a_tick]; congruence|auto].
Qed.
Lemma same_uuid : same any (perform CUuid).
Proof.
  intros s1 s2 [[H1 [H2 [H3 [H4 [H5 H6]]]]] [T1 [T2 M]]]. unfold arun. cbn [perform run astep fst snd].
  rewrite H6. split; [reflexivity|]. split; [|auto]. split; [repeat split; auto; cbn [a_uuid]; congruence|auto].
Qed.
Lemma same_read n : belongs a n -> same any (perform (CRead n)).
Proof.
  intros Hn s1 s2 HR. pose proof HR as [[H1 _] _]. unfold arun. cbn [perform run astep fst snd]. rewrite (H1 n Hn). auto.
Qed.
Lemma same_read_own : same mode_ok (perform (CRead (own_chain a))).
Proof.
  intros s1 s2 HR. pose proof HR as [[H1 _] [_ [_ M]]]. unfold arun. cbn [perform run astep fst snd].
  rewrite (H1 (own_chain a)) in * by (left; reflexivity). split; [reflexivity|]. split; [exact HR|]. intros v [= <-]. exact M.
Qed.
Lemma alog_append s n e m : alog (fst (arun (perform (CAppend n e)) s)) m = if text_eqb m n then Block (clock (a_tick s)) e :: alog s n else alog s m.
Proof. unfold arun. cbn [perform run astep fst]. unfold alog. cbn [a_logs]. rewrite dget_dset. destruct (text_eqb m n); reflexivity. Qed.
Lemma tidy_append s n e : tidy s -> tidy (fst (arun (perform (CAppend n e)) s)).
Proof.
  intros [H1 H2]. split.
  - unfold arun. cbn [perform run astep fst a_logs]. apply dset_NoDup, H1.
  - intros m. rewrite alog_append. unfold arun. cbn [perform run astep fst a_logs]. rewrite dkeys_dset_In.
    destruct (text_eqb_spec m n) as [->|Hne]; [split; [discriminate|auto]|]. rewrite H2. intuition congruence.
Qed.
Lemma mgr_not_mine : ~ belongs a mgr_chain.
Proof. intros [H|[H|[x H]]]; discriminate H. Qed.
Lemma same_append n e : belongs a n -> (forall t l, n = own_chain a -> mode_ok l -> mode_ok (Block t e :: l)) -> same any (perform (CAppend n e)).
Proof.
  intros Hn Hm s1 s2 [[H1 [H2 [H3 [H4 [H5 H6]]]]] [T1 [T2 M]]].
  split; [reflexivity|]. split; [|auto]. split; [|split; [apply tidy_append, T1|split; [apply tidy_append, T2|]]].
  - split; [|split; [|split; [exact H3|split; [exact H4|]]]].
    + intros m Hm'. rewrite !alog_append, H5, (H1 n Hn), (H1 m Hm'). reflexivity.
    + unfold version, version_log in *. rewrite !alog_append. destruct (text_eqb_spec (L ".") n) as [<-|_]; [exfalso; exact (mgr_not_mine Hn)|exact H2].
    + unfold arun. cbn [perform run astep fst a_tick a_uuid]. auto.
  - rewrite alog_append. destruct (text_eqb_spec (own_chain a) n) as [<-|_]; [|exact M]. apply Hm; auto.
Qed.
Lemma same_append_mgr v : same any (perform (CAppend mgr_chain (EACfg v))).
Proof.
  intros s1 s2 [[H1 [H2 [H3 [H4 [H5 H6]]]]] [T1 [T2 M]]].
  split; [reflexivity|]. split; [|auto]. split; [|split; [apply tidy_append, T1|split; [apply tidy_append, T2|]]].
  - split; [|split; [|split; [exact H3|split; [exact H4|]]]].
    + intros m Hm'. rewrite !alog_append, (H1 m Hm'). destruct (text_eqb_spec m mgr_chain) as [->|_]; [destruct (mgr_not_mine Hm')|reflexivity].
    + unfold version, version_log in *. rewrite !alog_append. reflexivity.
    + unfold arun. cbn [perform run astep fst a_tick a_uuid]. auto.
  - rewrite alog_append. destruct (text_eqb_spec (own_chain a) mgr_chain) as [H|_]; [apply own_mgr in H; destruct H|exact M].
Qed.
Lemma same_append_peer x e : same any (perform (CAppend (peer_chain a x) e)).
Proof. apply same_append; [right; right; exists x; unfold peer_chain, peer_prefix; rewrite <- !app_assoc; reflexivity|]. intros t l H. symmetry in H. apply own_peer in H. destruct H. Qed.
Lemma same_append_oob e : same any (perform (CAppend (oob_chain a) e)).
Proof. apply same_append; [right; left; reflexivity|]. intros t l H. symmetry in H. apply own_oob in H. destruct H. Qed.
Lemma same_read_peer x : same any (perform (CRead (peer_chain a x))).
Proof. apply same_read. right; right; exists x. unfold peer_chain, peer_prefix; rewrite <- !app_assoc; reflexivity. Qed.
Lemma same_read_oob : same any (perform (CRead (oob_chain a))).
Proof. apply same_read. right; left; reflexivity. Qed.
Lemma same_config c e : mk_cfg_entry c = Ok e -> (sys = false -> cf_mode c = L "own") -> same any (perform (CAppend (own_chain a) e)).
Proof.
  unfold mk_cfg_entry. destruct (_ && _); intros [= <-] Hc. apply same_append; [left; reflexivity|]. intros t l _ _ Hs c0 [= <-]. auto.
Qed.
Lemma same_keygen k : same any (perform (CAppend (own_chain a) (EKeygen k))).
Proof. apply same_append; [left; reflexivity|]. intros t l _ H Hs c0 H0. apply H; auto. Qed.

(** gpg *)
Definition opt_home (h : option text) : text := match h with Some h => h | None => [] end.
Definition ours (g : bingpg) : Prop := gp_home g = Some (own_gpghome a) \/ (gp_home g = None /\ sys = true).
Definition args_ok (l : list text) : Prop := match l with f :: _ :: _ => text_eqb f (L "--homedir") = false | _ => True end.
Lemma own_home_nonempty : own_gpghome a <> [].
Proof. unfold own_gpghome. destruct basedir; discriminate. Qed.
Lemma tidy_gpg argv i t s : tidy s -> tidy (fst (arun (perform (CGpg argv i t)) s)).
Proof. unfold arun. cbn [perform run astep]. destruct (gpg _ _ _ _). cbn [fst]. intros H. exact H. Qed.
Lemma same_gpg argv i t : argv_home argv = own_gpghome a \/ (argv_home argv = [] /\ sys = true) -> same any (perform (CGpg argv i t)).
Proof.
  intros Hh s1 s2 [[H1 [H2 [H3 [H4 [H5 H6]]]]] [T1 [T2 M]]].
  assert (Hr : ring_at (a_rings s1) (argv_home argv) = ring_at (a_rings s2) (argv_home argv)).
  { destruct Hh as [->|[-> Hs]]; [exact H3|exact (H4 Hs)]. }
  unfold arun. cbn [perform run astep]. rewrite Hr. destruct (gpg _ _ _ _) as [r' res]. cbn [fst snd].
  split; [reflexivity|]. split; [|auto]. split; [|split; [exact T1|split; [exact T2|exact M]]].
  split; [exact H1|]. split; [exact H2|].
  assert (G : forall h, ring_content s1 h = ring_content s2 h ->
    ring_content (AState (a_logs s1) (dset (a_rings s1) (argv_home argv) r') (a_tick s1) (a_uuid s1) (GCall (argv_home argv) argv i t :: a_trace s1)) h =
    ring_content (AState (a_logs s2) (dset (a_rings s2) (argv_home argv) r') (a_tick s2) (a_uuid s2) (GCall (argv_home argv) argv i t :: a_trace s2)) h).
  { intros h Hc. unfold ring_content in *. cbn [a_rings]. rewrite !ring_at_dset. destruct (text_eqb _ _); [reflexivity|exact Hc]. }
  split; [apply G, H3|]. split; [intros Hs; apply G, H4, Hs|]. auto.
Qed.
Lemma same_outerr g argv i t st dec : ours g -> args_ok argv -> same any (gpg_outerr g argv i t st dec).
Proof.
  intros Hg Ha. unfold gpg_outerr. eapply same_bind; [apply same_gpg|].
  - destruct Hg as [Hg|[Hg Hs]]; [left|right; split; [|exact Hs]]; unfold homedirflags; rewrite Hg.
    + destruct (own_gpghome a) as [|x h] eqn:Eh; [destruct (own_home_nonempty Eh)|]. cbn [nonempty app argv_home]. rewrite text_eqb_refl. reflexivity.
    + cbn [app argv_home]. destruct argv as [|f [|d k]]; [reflexivity..|]. cbn in Ha. rewrite Ha. reflexivity.
  - intros r _. destruct (Z.eqb _ _); [apply same_raise|]. destruct (utf8 _); [|apply same_raise]. destruct (if dec then _ else _); [|apply same_raise].
    destruct (_ || _); [apply same_raise|apply same_ret; exact I].
Qed.
Lemma args_pass g l : args_ok (nopassphrase g ++ l).
Proof. unfold nopassphrase. reflexivity. Qed.
Lemma args_armor (b : bool) l : l <> [] -> args_ok l -> args_ok ((if b then [L "-a"] else []) ++ l).
Proof. destruct b; cbn [app]; auto. destruct l; [congruence|]. intros _ _. reflexivity. Qed.

Create HintDb same.
Ltac same := repeat match goal with
  | |- same _ (bind (if true then Ret ?x else _) ?f) => change (bind (if true then Ret x else _) f) with (f x); cbv beta iota
  | |- same _ (bind (Ret ?x) ?f) => change (bind (Ret x) f) with (f x); cbv beta iota
  | |- same _ (bind (get_bingpg _) _) => fail 1
  | |- same _ (bind _ _) => eapply (same_bind any); [|intros ? _]
  | |- same _ (catch _ _) => apply same_catch; [|intros [] ? ?; try discriminate; match goal with H : Some _ = Some _ |- _ => injection H as <- end]
  | |- same any (lift _) => apply same_lift
  | |- same any (assert_ _) => apply same_assert
  | |- same _ (perform CTime) => apply same_time
  | |- same _ (perform CUuid) => apply same_uuid
  | |- same _ (Ret _) => apply same_ret; exact I
  | |- same _ (Raise _) => apply same_raise
  | |- same _ (mapM _ _) => apply same_mapM; intros ?
  | |- same _ (foldM _ _ _) => apply same_foldM; intros ? ?
  | |- same _ (match ?x with _ => _ end) => destruct x
  | |- same _ (let (_, _) := ?x in _) => destruct x
  | |- same _ (let _ := _ in _) => cbv zeta
  | |- same _ _ => solve [eauto 2 with same]
  end.
Hint Resolve same_read_peer same_append_peer same_append_oob same_read_oob same_keygen : same.

Lemma s_list_pub g kh : ours g -> same any (list_public_keyinfos g kh).
Proof. intros Hg. unfold list_public_keyinfos, parse_list. eapply (same_bind any); [apply same_outerr; [exact Hg|reflexivity]|]. intros [o e] _. same. Qed.
Lemma s_list_sec g kh : ours g -> same any (list_secret_keyinfos g kh).
Proof. intros Hg. unfold list_secret_keyinfos, parse_list. eapply (same_bind any); [apply same_outerr; [exact Hg|reflexivity]|]. intros [o e] _. same. Qed.
Hint Resolve s_list_pub s_list_sec : same.
Lemma s_secret_kh g kh : ours g -> same any (get_secret_keyhandle g kh).
Proof. intros Hg. unfold get_secret_keyhandle. same. Qed.
Lemma s_find_kh g t : ours g -> same any (find_keyhandle g t).
Proof. intros Hg. unfold find_keyhandle. same. Qed.
Hint Resolve s_secret_kh s_find_kh : same.
Lemma s_gen g t : ours g -> same any (gen_secret_key g t).
Proof. intros Hg. unfold gen_secret_key, version_known. eapply (same_bind any); [apply same_lift|]. intros sp _. eapply (same_bind any); [apply same_lift|]. intros v _. eapply (same_bind any); [apply same_outerr; [exact Hg|apply args_pass]|]. intros [o e] _. same. Qed.
Lemma s_pub g kh b : ours g -> same any (get_public_keydata g kh b).
Proof. intros Hg. unfold get_public_keydata. eapply (same_bind any); [apply same_outerr; [exact Hg|apply args_armor; [discriminate|reflexivity]]|]. intros [o e] _. same. Qed.
Lemma s_sec g kh b : ours g -> same any (get_secret_keydata g kh b).
Proof. intros Hg. unfold get_secret_keydata, version_known. eapply (same_bind any); [apply same_lift|]. intros v _. eapply (same_bind any); [apply same_outerr; [exact Hg|apply args_armor; [discriminate|apply args_pass]]|]. intros [o e] _. same. Qed.
Lemma s_enc g d rs k : ours g -> same any (gpg_encrypt g d rs k).
Proof. intros Hg. unfold gpg_encrypt, version_known. eapply (same_bind any); [apply same_lift|]. intros v _. eapply (same_bind any); [apply same_outerr; [exact Hg|apply args_pass]|]. intros [o e] _. same. Qed.
Lemma s_dec g d : ours g -> same any (gpg_decrypt g d).
Proof. intros Hg. unfold gpg_decrypt, version_known. eapply (same_bind any); [apply same_lift|]. intros v _. eapply (same_bind any); [apply same_outerr; [exact Hg|apply args_pass]|]. intros [o e] _. same. Qed.
Hint Resolve s_gen s_pub s_sec s_enc s_dec : same.
Lemma s_import g kd b : ours g -> same any (import_keydata g kd b).
Proof.
  intros Hg. unfold import_keydata. eapply (same_bind any); [apply same_outerr; [exact Hg|reflexivity]|]. intros [o e] _.
  eapply (same_bind any); [auto with same|]. intros kh _. destruct b; [|same].
  eapply (same_bind any); [auto with same|]. intros kd' _. eapply (same_bind any); [apply same_outerr; [exact Hg|reflexivity]|]. intros _ _.
  eapply (same_bind any); [apply same_outerr; [exact Hg|reflexivity]|]. intros [o2 e2] _. same.
Qed.
Hint Resolve s_import : same.

(** settings *)
Lemma s_config : same (fun c => sys = false -> cf_mode c = L "own") (own_config a).
Proof.
  unfold own_config. eapply same_bind; [apply same_read_own|]. intros l Hl. destruct (latest_config l) eqn:Hc; [|apply same_raise]. apply same_ret. intros Hs. apply (Hl Hs _ Hc).
Qed.
Lemma s_config_any : same any (own_config a).
Proof. eapply same_weaken; [apply s_config|auto]. Qed.
Lemma s_kh : same any (own_keyhandle a).
Proof. unfold own_keyhandle. eapply same_bind; [apply same_read_own|]. intros l _. same. Qed.
Lemma s_bingpg : same ours (get_bingpg a).
Proof.
  unfold get_bingpg. eapply same_bind; [apply s_config|]. intros c Hc. destruct (negb _); [apply same_raise|]. unfold mk_bingpg, ours.
  destruct (text_eqb_spec (cf_mode c) (L "own")) as [_|Hm].
  - destruct (find_executable _) as [p|]; [|apply same_raise]. destruct (wants_agent_conf p); [apply same_ret; left; reflexivity|apply same_raise].
  - destruct (text_eqb _ _); [|apply same_raise]. destruct (find_executable _); [|apply same_raise]. apply same_ret. right.
    split; [reflexivity|]. destruct sys; [reflexivity|]. exfalso. auto.
Qed.
Hint Resolve s_config_any s_kh : same.
Ltac bingpg := eapply same_bind; [apply s_bingpg|]; intros ? ?.

Lemma s_exists : same any (account_exists a).
Proof. unfold account_exists. eapply same_bind; [apply same_read_own|]. intros l _. same. Qed.
Lemma s_version : same any mgr_version.
Proof.
  unfold mgr_version. intros s1 s2 HR. pose proof HR as [[_ [H2 _]] _]. unfold arun. cbn [bind perform run astep fst snd].
  unfold version, version_log in H2. change mgr_chain with (L "."). rewrite H2. auto.
Qed.
Lemma s_set_version v : same any (set_version v).
Proof.
  unfold set_version. intros s1 s2 HR. pose proof HR as [[_ [H2 _]] _].
  assert (G : forall s, arun (l <- perform (CRead mgr_chain) ;; match hd_error (acfg_entries l) with Some _ => Raise AssertionError | None => perform (CAppend mgr_chain (EACfg (ACfgEntry v))) end) s
    = match version s with Some _ => (s, Err AssertionError) | None => arun (perform (CAppend mgr_chain (EACfg (ACfgEntry v)))) s end).
  { intros s. unfold arun. cbn [bind perform run astep]. unfold version, version_log. change mgr_chain with (L "."). destruct (hd_error _); reflexivity. }
  rewrite !G, <- H2. destruct (version s1); [cbn [fst snd]; split; [reflexivity|split; [exact HR|discriminate]]|]. apply same_append_mgr, HR.
Qed.
Hint Resolve s_exists s_version s_set_version : same.
Lemma s_ensure_init : same any ensure_init. Proof. unfold ensure_init. same. Qed.
Hint Resolve s_ensure_init : same.
Lemma s_get_account check : same (fun x => x = a) (get_account a check).
Proof.
  unfold get_account. eapply (same_bind any); [auto with same|]. intros _ _. eapply (same_bind any); [apply same_assert|]. intros _ _.
  destruct check; [|apply same_ret; reflexivity]. eapply (same_bind any); [auto with same|]. intros [] _; [apply same_ret; reflexivity|apply same_raise].
Qed.
Lemma s_with {A} (f : text -> prog cop A) : same any (f a) -> same any (with_account a f).
Proof. intros H. unfold with_account. eapply same_bind; [apply s_get_account|]. intros x ->. exact H. Qed.

Lemma s_new_config c : (sys = false -> cf_mode c = L "own") -> same any (new_config a c).
Proof.
  intros Hc. unfold new_config. destruct (mk_cfg_entry c) as [e|e] eqn:He; cbn [lift bind]; [|apply same_raise]. eapply same_config; eauto.
Qed.
Lemma s_change p r b : same any (change_config a p r b).
Proof.
  unfold change_config. eapply same_bind; [apply same_read_own|]. intros l Hl. destruct (latest_config l) as [c|] eqn:Hc; [|apply same_raise]. cbv zeta.
  match goal with |- same _ (bind (lift (mk_cfg_entry ?c')) _) => destruct (mk_cfg_entry c') as [e|e] eqn:He; cbn [lift bind]; [|apply same_raise] end.
  destruct (cfg_eqb _ _); [apply same_ret; exact I|]. eapply (same_bind any); [eapply same_config; [exact He|]|intros _ _; apply same_ret; exact I].
  intros Hs. cbn [cf_mode]. apply (Hl Hs _ Hc).
Qed.
Lemma s_append_keygen kd kh : same any (append_keygen a kd kh). Proof. apply same_keygen. Qed.
Hint Resolve s_change s_append_keygen : same.
Lemma s_remove : same any (remove_account a).
Proof.
  unfold remove_account. intros s1 s2 [[H1 [H2 [H3 [H4 [H5 H6]]]]] [T1 [T2 M]]].
  assert (Hl : forall s n, alog (fst (arun (perform (CRemoveIf (match_account a))) s)) n = if match_account a n then [] else alog s n).
  { intros s n. unfold arun. cbn [perform run astep fst]. unfold alog. cbn [a_logs]. rewrite dget_dremove_if. destruct (match_account a n); reflexivity. }
  assert (HT : forall s, tidy s -> tidy (fst (arun (perform (CRemoveIf (match_account a))) s))).
  { intros s [T3 T4]. split; [apply dremove_if_NoDup, T3|]. intros n. rewrite Hl. rewrite <- dget_Some_key. unfold arun. cbn [perform run astep fst a_logs].
    rewrite dget_dremove_if. destruct (match_account a n); [split; [intros [l Hl']; discriminate|congruence]|]. rewrite dget_Some_key. apply T4. }
  split; [reflexivity|]. split; [|auto]. split; [|split; [apply HT, T1|split; [apply HT, T2|]]].
  - split; [|split; [|split; [exact H3|split; [exact H4|]]]].
    + intros m Hm. rewrite !Hl, (H1 m Hm). reflexivity.
    + unfold version, version_log in *. rewrite !Hl. change (L ".") with mgr_chain. rewrite match_account_mgr. exact H2.
    + auto.
  - rewrite Hl. destruct (match_account a (own_chain a)); [|exact M]. intros _ c H. discriminate H.
Qed.
Lemma s_peers : same any (get_peername_list a).
Proof.
  unfold get_peername_list. intros s1 s2 HR. pose proof HR as [[H1 _] [[T1 T1'] [[T2 T2'] _]]].
  unfold arun. cbn [bind perform run astep fst snd]. split; [|auto]. f_equal.
  apply strict_unique; [apply strict_sorted, with_prefix_NoDup; assumption..|]. intros x. rewrite !sorted_In, !with_prefix_In, T1', T2'.
  rewrite (H1 (peer_prefix a ++ x)); [tauto|]. right; right. exists x. unfold peer_prefix. rewrite <- !app_assoc. reflexivity.
Qed.
Hint Resolve s_remove s_peers : same.

(** ** Functions of an account *)
Lemma s_create r kh b m : (sys = false -> m = L "own") -> same any (create a r kh b m).
Proof.
  intros Hm. unfold create. eapply (same_bind any); [apply same_assert|]. intros _ _. eapply (same_bind any); [apply s_new_config; exact Hm|]. intros _ _.
  eapply (same_bind any).
  { destruct kh as [h|]; [bingpg; same|]. eapply (same_bind any); [apply same_uuid|]. intros id _. bingpg. same. }
  intros kh' _. bingpg. same.
Qed.
Lemma s_add r kh b m : (sys = false -> m = L "own") -> same (fun x => x = a) (add_account a r kh b m).
Proof.
  intros Hm. unfold add_account. eapply same_bind; [apply s_get_account|]. intros x ->. eapply (same_bind any); [auto with same|]. intros [] _; [apply same_raise|].
  eapply (same_bind any); [apply s_create; exact Hm|]. intros _ _. apply same_ret. reflexivity.
Qed.
Lemma s_mod r kh b p : same (fun x => snd x = a) (mod_account a r kh b p).
Proof. unfold mod_account. eapply same_bind; [apply s_get_account|]. intros x ->. eapply (same_bind any); [auto with same|]. intros ch _. apply same_ret. reflexivity. Qed.
Lemma s_del : same any (del_account a).
Proof. unfold del_account. eapply same_bind; [apply s_get_account|]. intros x ->. auto with same. Qed.
Lemma s_header x : same any (make_ac_header a x). Proof. unfold make_ac_header. bingpg. same. Qed.
Lemma s_read_state x : same any (perform (CRead (peerstate_chain a x))). Proof. apply same_read_peer. Qed.
Hint Resolve s_header s_read_state : same.
Lemma s_export_pub kh : same any (export_public_key a kh).
Proof. unfold export_public_key. eapply (same_bind any); [same|]. intros h _. bingpg. same. Qed.
Lemma s_export_sec : same any (export_secret_key a). Proof. unfold export_secret_key. bingpg. same. Qed.
Lemma s_import_key p : same any (import_key a p).
Proof. unfold import_key. bingpg. same. Qed.
Lemma s_update x i d p kd kh : same any (update_from_msg (peerstate_chain a x) i d p kd kh).
Proof. unfold update_from_msg, peerstate_chain. same. Qed.
Lemma s_update_gossip x i d kd kh : same any (update_from_msg_gossip (peerstate_chain a x) i d kd kh).
Proof. unfold update_from_msg_gossip, peerstate_chain. same. Qed.
Hint Resolve s_import_key s_update s_update_gossip : same.
Lemma s_pah m f d i : same any (process_autocrypt_header a m f (peerstate_chain a f) d i). Proof. unfold process_autocrypt_header. same. Qed.
Lemma s_decrypt m : same any (decrypt_mime a m).
Proof.
  unfold decrypt_mime. do 2 (eapply (same_bind any); [same|intros ? _]). destruct (m_body m) as [| | |ps]; try apply same_raise. destruct ps as [|q [|p1 [|? ?]]]; try apply same_raise.
  eapply (same_bind any); [same|]. intros ? _. bingpg. same.
Qed.
Lemma s_gossip m d i : same any (process_gossip_headers a m d i). Proof. unfold process_gossip_headers, gossip_recipient. same. Qed.
Hint Resolve s_pah s_decrypt s_gossip : same.
Lemma s_incoming m ig nd : same (fun r => forall i, r = Some i -> in_acct i = a /\ exists x, in_chain i = peerstate_chain a x) (process_incoming a m ig nd).
Proof.
  unfold process_incoming. cbv zeta. do 3 (eapply (same_bind any); [unfold effective_date; same|intros ? _]).
  destruct (_ && _); [apply same_ret; discriminate|]. eapply (same_bind any); [same|]. intros p _. eapply (same_bind any); [same|]. intros enc _.
  eapply (same_bind any); [same|]. intros g _. apply same_ret. intros i [= <-]. split; [reflexivity|]. eexists. reflexivity.
Qed.
Lemma s_import_as x kd p : same any (import_keydata_as_autocrypt a x kd p).
Proof. unfold import_keydata_as_autocrypt. bingpg. same. Qed.
Lemma s_recommend xs r f : same any (recommend a xs r f).
Proof.
  unfold recommend, ui_recommendation. eapply (same_bind any); [same|]. intros c _. eapply (same_bind any); [|intros ? _; same].
  assert (G : forall l, Forall (fun n => exists x, n = peer_chain a x) l -> same any (mapM (fun n => l <- perform (CRead n) ;; lift (peer_recommendation (cf_pref c) r l)) l)).
  { induction 1 as [|n l [x ->] HF IH]; cbn [mapM]; [same|]. eapply (same_bind any); [same|]. intros ? _. eapply (same_bind any); [exact IH|]. intros ? _. same. }
  apply G. unfold rec_peers.
  assert (K : forall l d, Forall (fun n => exists x, n = peer_chain a x) (map snd d) ->
    Forall (fun n => exists x, n = peer_chain a x) (map snd (fold_left (fun d y => if otext_eqb (Some y) f then d else dset d y (peerstate_chain a y)) l d))).
  { induction l as [|y l IH]; intros d Hd; cbn [fold_left]; [exact Hd|]. apply IH. destruct (otext_eqb _ _); [exact Hd|].
    clear - Hd. induction d as [|[k v] d IHd]; cbn [dset map snd] in *; [constructor; [eexists; reflexivity|constructor]|]. inversion Hd; subst.
    destruct (text_eqb _ _); cbn [map snd]; constructor; auto. eexists; reflexivity. }
  apply K. constructor.
Qed.
Lemma s_encrypt m to : same any (encrypt_mime a m to).
Proof.
  unfold encrypt_mime. eapply (same_bind any); [same|]. intros _ _. eapply (same_bind any); [unfold encrypt_recipient; same|]. intros [khs cl] _.
  do 2 (eapply (same_bind any); [same|intros ? _]). bingpg. same.
Qed.
Hint Resolve s_recommend s_encrypt : same.
Lemma s_outgoing m : same any (process_outgoing a m). Proof. unfold process_outgoing. same. Qed.
Lemma s_status v : same any (cli_status_account a v).
Proof. unfold cli_status_account, status_peer_line. eapply (same_bind any); [same|]. intros c _. bingpg. same. Qed.
Hint Resolve s_export_pub s_export_sec s_import_as s_outgoing s_status s_del : same.
Lemma s_cli_incoming rp nd m : same any (cli_process_incoming (Some a) rp nd m).
Proof.
  unfold cli_process_incoming. eapply same_bind; [apply s_get_account|]. intros x ->. eapply same_bind; [apply s_incoming|]. intros [i|] Hi; [|same].
  destruct (Hi i eq_refl) as [_ [x ->]]. same.
Qed.

Lemma s_exec c : names c = Some a -> (forall m, c <> ACliDel m) -> (sys = false -> only_own c) -> same any (exec c).
Proof.
  intros Hn Hd Ho. destruct c; cbn [names] in Hn; try discriminate; cbn [exec].
  all: try (injection Hn as ->).
  all: try (apply s_with; same; fail).
  - eapply same_bind; [apply s_add; intros Hs; apply (Ho Hs _ _ eq_refl)|]. intros x ->. same.
  - eapply same_bind; [apply s_mod|]. intros [ch x] _. same.
  - same.
  - apply s_with. eapply same_bind; [apply s_incoming|]. intros i _. same.
  - apply s_with. unfold get_verification. same.
  - unfold cli_add_account. eapply (same_bind any); [|intros ? _; same]. eapply same_bind; [apply s_add|intros x ->; same].
    intros Hs. apply (Ho Hs _ _ eq_refl).
  - unfold cli_mod_account. eapply (same_bind any); [|intros [? ?] _; same]. eapply same_bind; [apply s_mod|]. intros [ch x] Hx. cbn [snd] in Hx. subst x. same.
  - destruct (Hd a eq_refl).
  - destruct name as [n|]; [|discriminate]. injection Hn as ->. eapply (same_bind any); [apply s_cli_incoming|]. intros r _. same.
  - eapply (same_bind any); [|intros ? _; same]. unfold cli_peerstate. eapply same_bind; [apply s_get_account|]. intros x ->. same.
Qed.
End Indep.

Section C67.
Context {E : Env}.

Lemma private_mode s a sys : WF s -> private s a -> mode_ok sys (alog s (own_chain a)).
Proof.
  intros Hw [H|[c [kh [Ho Hm]]]] _ c' Hc.
  - exfalso. apply H. apply accounts_In; [exact Hw|]. intros H0. rewrite H0 in Hc. discriminate.
  - apply own_of_some in Ho; [|exact Hw]. destruct Ho as [Ho _]. unfold config_of in Ho. congruence.
Qed.
Lemma mode_true l : mode_ok true l. Proof. intros H. discriminate. Qed.

Lemma c67_general sys s1 s2 a c : tidy s1 -> tidy s2 -> mode_ok sys (alog s1 (own_chain a)) -> names c = Some a -> (forall m, c <> ACliDel m) ->
  (sys = false -> only_own c) -> alike sys a s1 s2 ->
  answer s1 c = answer s2 c /\ alike sys a (after s1 c) (after s2 c) /\ mode_ok sys (alog (after s1 c) (own_chain a)).
Proof.
  intros T1 T2 M Hn Hd Ho Ha. destruct (s_exec sys a c Hn Hd Ho s1 s2) as [H1 [H2 _]]; [split; [exact Ha|]; split; [exact T1|]; split; [exact T2|exact M]|].
  split; [exact H1|]. split; [apply H2|apply H2].
Qed.
Theorem c67_same s1 s2 a c : reachable s1 -> reachable s2 -> names c = Some a -> (forall m, c <> ACliDel m) -> alike true a s1 s2 ->
  answer s1 c = answer s2 c /\ alike true a (after s1 c) (after s2 c).
Proof.
  intros H1 H2 Hn Hd Ha. destruct (c67_general true s1 s2 a c) as [H3 [H4 _]]; auto; try (apply tidy_WF, reachable_WF; assumption); [apply mode_true|discriminate].
Qed.
Theorem c67_private s1 s2 a c : reachable s1 -> reachable s2 -> private s1 a -> names c = Some a -> (forall m, c <> ACliDel m) -> only_own c ->
  alike false a s1 s2 -> answer s1 c = answer s2 c /\ alike false a (after s1 c) (after s2 c).
Proof.
  intros H1 H2 Hp Hn Hd Ho Ha. destruct (c67_general false s1 s2 a c) as [H3 [H4 _]]; auto; try (apply tidy_WF, reachable_WF; assumption).
  apply private_mode; [apply reachable_WF, H1|exact Hp].
Qed.
(** sessions *)
Theorem c67_session s1 s2 a h : reachable s1 -> reachable s2 -> Forall (fun c => names c = Some a /\ forall m, c <> ACliDel m) h -> alike true a s1 s2 ->
  snd (session h s1) = snd (session h s2) /\ alike true a (after_all s1 h) (after_all s2 h).
Proof.
  intros H1 H2 HF. revert s1 s2 H1 H2. induction HF as [|c h [Hn Hd] HF IH]; intros s1 s2 H1 H2 Ha; [split; [reflexivity|exact Ha]|].
  destruct (c67_same s1 s2 a c H1 H2 Hn Hd Ha) as [H3 H4]. unfold after_all. cbn [session]. unfold answer, after in H3, H4.
  specialize (IH _ _ (reachable_step s1 c H1) (reachable_step s2 c H2) H4). unfold after_all in IH.
  destruct (arun (exec c) s1) as [t1 r1], (arun (exec c) s2) as [t2 r2]. cbn [fst snd] in *. subst r2.
  destruct (session h t1), (session h t2). cbn [fst snd] in *. destruct IH as [-> IH]. auto.
Qed.

(** calls on another account *)
Lemma others_logs s a b c n : reachable s -> isalnum a = true -> names c = Some b -> (forall m, c <> ACliDel m) -> a <> b -> belongs a n ->
  alog (after s c) n = alog s n.
Proof.
  intros Hr Ha Hn Hd Hab Hb. pose proof (reachable_WF s Hr) as Hw. destruct (after_path s c Hw) as [ls [Hp HF]]. rewrite Forall_forall in HF.
  apply (path_logs s ls _ a n Hp Ha); [|intros l Hl; apply (scope_names c b l a Hn Hd (HF l Hl) Hab)].
  destruct Hb as [->|[->|[x ->]]]; unfold acct_log, own_chain, oob_chain, peer_chain, peer_prefix; [auto|auto|]. right; right. exists x. rewrite <- !app_assoc. reflexivity.
Qed.
Lemma others_own_ring s a b c : reachable s -> names c = Some b -> (forall m, c <> ACliDel m) -> a <> b ->
  ring_content (after s c) (own_gpghome a) = ring_content s (own_gpghome a).
Proof.
  intros Hr Hn Hd Hab. pose proof (reachable_WF s Hr) as Hw.
  destruct (call_rings (fun x => x = b) (fun _ _ => True) s c Hw) as [[_ H] _]; auto.
  - destruct c; simpl in *; try discriminate; reflexivity.
  - intros x argv i t Hx. eapply scope_gpg_names; eauto.
  - apply H. intros [x [mode [_ [-> [_ Hx]]]]]. unfold ring_of_mode in Hx. destruct (text_eqb mode (L "own")).
    + apply c45_distinct in Hx. congruence.
    + exact (own_home_nonempty a Hx).
Qed.
Theorem c67_others s a b c d : reachable s -> isalnum a = true -> has_account s b -> names c = Some b -> (forall m, c <> ACliDel m) -> a <> b ->
  names d = Some a -> (forall m, d <> ACliDel m) ->
  (exists cfg kh, own_of s b = Some (cfg, kh) /\ cf_mode cfg = L "own") \/ (private s a /\ only_own d) ->
  answer (after s c) d = answer (at_time s (a_tick (after s c)) (a_uuid (after s c))) d.
Proof.
  intros Hr Ha Hb Hn Hd Hab Hn' Hd' Hm. pose proof (reachable_WF s Hr) as Hw. set (s' := at_time s _ _).
  assert (Hv : version_log (after s c) = version_log s).
  { apply c48_once; [exact Hr| |].
    - eapply c48_present; [exact Hr|]. apply (has_listed s b Hw Hb).
    - destruct c; simpl in *; try discriminate; reflexivity. }
  assert (T : tidy s') by apply (tidy_WF s Hw).
  assert (Hl : forall n, belongs a n -> alog (after s c) n = alog s' n).
  { intros n Hbn. change (alog s' n) with (alog s n). eapply others_logs; eauto. }
  assert (Hring : ring_content (after s c) (own_gpghome a) = ring_content s' (own_gpghome a)) by (apply (others_own_ring s a b c); auto).
  assert (Hver : version (after s c) = version s') by (unfold version; rewrite Hv; reflexivity).
  destruct Hm as [Hm|[Hp Ho]].
  - assert (Hsys : ring_content (after s c) [] = ring_content s' []).
    { destruct (c44_own s c b Hr Hn Hd (or_introl Hm)) as [_ H]. apply H. intros H0. exact (own_home_nonempty b (eq_sym H0)). }
    apply (c67_general true (after s c) s' a d); auto; [apply tidy_WF, WF_after, Hw|apply mode_true|discriminate|].
    split; [exact Hl|]. split; [exact Hver|]. split; [exact Hring|]. split; [auto|]. split; reflexivity.
  - apply (c67_general false (after s c) s' a d); auto; [apply tidy_WF, WF_after, Hw| |].
    + rewrite (Hl (own_chain a)); [|left; reflexivity]. exact (private_mode s a false Hw Hp).
    + split; [exact Hl|]. split; [exact Hver|]. split; [exact Hring|]. split; [discriminate|]. split; reflexivity.
Qed.
End C67.
