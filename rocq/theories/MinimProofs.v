(** Proof of C49_minimised. *)
From Verif Require Import Base PyStr Env Prog Chain Gpg Mime States Recommendation Account Cmdline Bot Fs Api Steps StepFacts Exec ApiScope
  Spec PeerSpec OutSpec AcctSpec Obs PeerFacts Quiet OutProofs ImportProofs MinimSpec.

Section MinimProofs.
Context {E : Env}.

Definition unfed : forall X, cop X -> Prop := fun X o => match o with CGpg _ inp _ => inp = None | _ => True end.
Definition adds (s s' : ast) : Prop := exists l, a_trace s' = l ++ a_trace s /\ Forall (fun g => gc_in g = None) l.
Lemma adds_refl s : adds s s. Proof. exists []. split; [reflexivity|constructor]. Qed.
Lemma adds_trans s1 s2 s3 : adds s1 s2 -> adds s2 s3 -> adds s1 s3.
Proof. intros [l [H1 H2]] [k [H3 H4]]. exists (k ++ l). split; [rewrite H3, H1, app_assoc; reflexivity|apply Forall_app; auto]. Qed.
Lemma unfed_run {A} (p : prog cop A) : allowed unfed p -> forall s, adds s (fst (arun p s)).
Proof.
  unfold arun. induction 1 as [a|e|X o k H Hk IH]; intros s; cbn [run]; [apply adds_refl|apply adds_refl|].
  assert (H1 : adds s (fst (astep o s))).
  { destruct o; try (exists []; split; [reflexivity|constructor]; fail). cbn in H. rewrite H. cbn [astep].
    destruct (gpg _ _ _ _) as [r' res]. cbn [fst]. eexists [_]. split; [reflexivity|]. repeat constructor. }
  destruct (astep o s) as [s1 x]. cbn [fst] in H1. eapply adds_trans; [exact H1|apply IH].
Qed.
Lemma unfed_ok {A} (p : prog cop A) s s' r : allowed unfed p -> arun p s = (s', r) -> adds s s'.
Proof. intros H Hr. pose proof (unfed_run p H s) as Ha. rewrite Hr in Ha. exact Ha. Qed.
Lemma unfed_outerr g argv tmp st d : allowed unfed (gpg_outerr g argv None tmp st d).
Proof.
  unfold gpg_outerr. apply allowed_bind; [constructor; [reflexivity|constructor]|]. intros r.
  destruct (Z.eqb _ _); [constructor|]. destruct (utf8 _); [|constructor]. destruct (if d then _ else _); [|constructor].
  destruct (_ || _); constructor.
Qed.
Lemma unfed_lift {A} (r : result A) : allowed unfed (lift r : prog cop A).
Proof. destruct r; constructor. Qed.
Lemma unfed_list g x : allowed unfed (list_public_keyinfos g x).
Proof. unfold list_public_keyinfos, parse_list. apply allowed_bind; [apply unfed_outerr|]. intros [o e]. apply unfed_lift. Qed.
Lemma unfed_find g err : allowed unfed (find_keyhandle g err).
Proof.
  unfold find_keyhandle. destruct (search_key err); [|constructor]. destruct (Nat.leb _ _); [|constructor].
  apply allowed_bind; [apply unfed_list|]. intros l. destruct (find _ l); constructor.
Qed.
Lemma unfed_public g kh b : allowed unfed (get_public_keydata g kh b).
Proof. unfold get_public_keydata. apply allowed_bind; [apply unfed_outerr|]. intros [o e]. constructor. Qed.
Lemma unfed_update ch id d p k h : allowed unfed (update_from_msg ch id d p k h).
Proof.
  unfold update_from_msg. cbv zeta. apply allowed_bind; [constructor; [exact I|constructor]|]. intros l.
  assert (Ha : forall e, allowed unfed (perform (CAppend ch e))) by (intros; constructor; [exact I|constructor]).
  destruct (Z.ltb _ _); [constructor|]. destruct (match get_message_entry _ _ with Some _ => _ | None => _ end); [constructor|].
  destruct (negb _); [destruct (Z.ltb _ _); [|constructor]|]; (apply allowed_bind; [apply unfed_lift|intros; apply Ha]).
Qed.
Lemma unfed_mapM {A B} (f : A -> prog cop B) l : (forall a, allowed unfed (f a)) -> allowed unfed (mapM f l).
Proof. intros H. induction l as [|a l IH]; cbn [mapM]; [constructor|]. apply allowed_bind; [apply H|]. intros. apply allowed_bind; [exact IH|]. intros. constructor. Qed.

Lemma minimise_run g kd s s' kh : arun (import_keydata g kd true) s = (s', Ok kh) -> minimised s s' kd kh.
Proof.
  unfold import_keydata. intros H.
  apply arun_bind_ok in H as [s1 [[o1 e1] [H1 H]]]. apply gpg_outerr_ok in H1 as [_ [T1 _]].
  apply arun_bind_ok in H as [s2 [kh0 [H2 H]]]. apply (unfed_ok _ _ _ _ (unfed_find _ _)) in H2 as [l2 [T2 F2]].
  apply arun_bind_ok in H as [s3 [small [H3 H]]]. unfold get_public_keydata in H3.
  apply arun_bind_ok in H3 as [s3' [[o3 e3] [H3 H3']]]. apply arun_ret_ok in H3' as [-> ->]. apply gpg_outerr_ok in H3 as [_ [T3 [r [_ R3]]]].
  cbn [app] in T3, R3. injection R3 as R3.
  apply arun_bind_ok in H as [s4 [[o4 e4] [H4 H]]]. apply gpg_outerr_ok in H4 as [_ [T4 _]].
  apply arun_bind_ok in H as [s5 [[o5 e5] [H5 H]]]. apply gpg_outerr_ok in H5 as [_ [T5 _]].
  apply arun_bind_ok in H as [s6 [mk [H6 H]]]. apply (unfed_ok _ _ _ _ (unfed_find _ _)) in H6 as [l6 [T6 F6]].
  apply arun_bind_ok in H as [s7 [[] [H7 H]]]. apply arun_ret_ok in H as [-> ->].
  destruct (text_eqb mk kh0); [|discriminate]. apply arun_ret_ok in H7 as [-> _].
  set (pre := [gp_path g; L "--batch"] ++ homedirflags g).
  assert (Hf : forall rest, full_argv g rest = pre ++ rest) by (intros; unfold full_argv, pre; rewrite <- app_assoc; reflexivity).
  set (home := match gp_home g with Some h => h | None => [] end).
  assert (Hh : forall x rest, text_eqb x (L "--homedir") = false -> argv_home (full_argv g (x :: rest)) = home).
  { intros x rest Hx. unfold full_argv, homedirflags, home. destruct (gp_home g) as [[|c h]|]; [|reflexivity|]; cbn [nonempty app argv_home]; (destruct rest; [reflexivity|]; rewrite Hx; reflexivity). }
  exists home, pre, o3, r, [], l2, l6. cbv zeta. rewrite Hf in R3.
  split; [|split; [symmetry; exact R3|auto]].
  rewrite T6, T5, T4, T3, T2, T1. rewrite !Hh by reflexivity. rewrite !Hf. cbn [app]. reflexivity.
Qed.
Lemma minimised_later s0 s s' s'' kd kh : grown s0 s -> minimised s s' kd kh -> adds s' s'' -> minimised s0 s'' kd kh.
Proof.
  intros [l0 H0] [home [pre [small [r [l1 [l2 [l3 [H1 [H2 [H3 H4]]]]]]]]]] [l [H5 H6]].
  exists home, pre, small, r, (l1 ++ l0), l2, (l ++ l3). cbv zeta in *.
  split; [|split; [exact H2|split; [apply Forall_app; auto|exact H4]]]. rewrite H5, H1, H0, <- !app_assoc. reflexivity.
Qed.
Lemma c49_minimised s n addr kd pref r : reachable s -> answer s (AImport n addr kd pref) = Ok (OImport r) ->
  minimised s (after s (AImport n addr kd pref)) kd (ir_kh r).
Proof.
  intros Hr Ha. pose proof (reachable_WF s Hr) as Hw.
  assert (He : exists_acct s n).
  { destruct (exists_acct_dec s n) as [He|He]; [exact He|]. exfalso. unfold answer in Ha. cbn [exec] in Ha.
    rewrite arun_with_account_none in Ha by exact He. discriminate. }
  unfold answer, after in *. cbn [exec] in *. rewrite arun_with_account in * by auto. rewrite arun_bind in *.
  destruct (arun (import_keydata_as_autocrypt n addr kd pref) s) as [s' [r'|e]] eqn:H; [|discriminate]. cbn [fst snd arun run] in *. injection Ha as ->.
  unfold import_keydata_as_autocrypt in H.
  apply arun_bind_ok in H as [s0 [g [H1 H]]]. apply get_bingpg_ok in H1 as ->.
  apply arun_bind_ok in H as [s1 [kh0 [H1 H]]]. apply quiet_only_gpg in H1 as O1; [|auto with quiet].
  apply arun_bind_ok in H as [s2 [us [H2 H]]].
  assert (O2 : only_gpg s1 s2).
  { destruct addr as [x|]; [apply arun_ret_ok in H2 as [-> _]; apply only_gpg_refl|].
    apply arun_bind_ok in H2 as [s2' [l [H2 H3]]]. apply arun_ret_ok in H3 as [-> _]. apply list_public_ok in H2 as [O2 _]. exact O2. }
  apply arun_bind_ok in H as [s3 [kh [H3 H]]]. apply minimise_run in H3.
  assert (Hk : ir_kh r = kh /\ adds s3 s').
  { pose proof H as Hu. apply unfed_ok in Hu.
    - split; [|exact Hu]. apply arun_bind_ok in H as [s4 [ul [_ H]]]. apply arun_bind_ok in H as [s5 [kd' [_ H]]]. apply arun_ret_ok in H as [_ ->]. reflexivity.
    - apply allowed_bind; [|intros; apply allowed_bind; [apply unfed_public|intros; constructor]].
      apply unfed_mapM. intros x. apply allowed_bind; [constructor; [exact I|constructor]|]. intros now.
      apply allowed_bind; [apply unfed_public|]. intros. apply unfed_update. }
  destruct Hk as [-> Hk]. eapply minimised_later; [|exact H3|exact Hk].
  eapply grown_trans; apply only_grown; eauto.
Qed.
End MinimProofs.
