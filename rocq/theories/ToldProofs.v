(** The gpg processes behind the recorded key handles (C97). *)
From Verif Require Import Base PyStr Env Prog Chain Gpg Mime States Recommendation Account Cmdline Bot Fs Api Steps StepFacts Exec ApiScope
  Spec Obs PeerSpec OutSpec AcctSpec Incoming PeerFacts PeerProofs4 Quiet OutProofs AcctFacts AcctProofs AcctProofs2 Rings CliSpec TalkSpec
  GpgSpec GpgText KeySpec KeyText KeyProofs FailSpec FailProofs Utf8 HandleProofs RealProofs ToldSpec.

Section ToldProofs.
Context {E : Env}.

(** ** One import *)
Lemma home_ring p mode a args : first_word_ok args -> argv_home (start_of p mode a ++ args) = ring_of_mode a mode.
Proof.
  unfold start_of, ring_of_mode. destruct args as [|x args]; [intros []|]. cbn [first_word_ok]. intros Hx.
  destruct (text_eqb mode (L "own")); cbn [app argv_home]; [reflexivity|]. destruct args; [reflexivity|].
  destruct (text_eqb_spec x (L "--homedir")); [congruence|reflexivity].
Qed.
Lemma outerr_told g c a args inp strict dec s s' out err : gp_home g = home_of c a -> first_word_ok args ->
  arun (gpg_outerr g args inp None strict dec) s = (s', Ok (out, err)) ->
  exists res, let pr := for_account (gp_path g) (cf_mode c) a args inp res in
    moved s s' [fst pr] /\ runs (a_rings s) [fst pr] = [pr] /\ g_ret res = 0%Z /\ utf8 (g_err res) = Some err /\
    (if dec then utf8 (g_out res) else Some (g_out res)) = Some out /\ (strict = true -> err = []).
Proof.
  intros Hh Hw H. apply outerr_moved in H as [res H]. exists res. cbv zeta in *. unfold for_account. cbn [fst].
  rewrite full_start, (made_start g c a Hh) in H. rewrite home_ring in H by exact Hw. exact H.
Qed.
Lemma find_told g c a err s s' kh : gp_home g = home_of c a -> arun (find_keyhandle g err) s = (s', Ok kh) ->
  exists gs, moved s s' gs /\ forall more, named_then (gp_path g) (cf_mode c) a err (runs (a_rings s) gs ++ more) kh.
Proof.
  intros Hh H. unfold find_keyhandle in H. destruct (search_key err) as [x|] eqn:Es; [|discriminate]. apply search_spec in Es.
  destruct (Nat.leb_spec (length x) 8) as [Hl|Hl].
  - apply arun_bind_ok in H as [s1 [l [H1 H]]]. unfold list_public_keyinfos, parse_list in H1.
    apply arun_bind_ok in H1 as [s2 [[out er] [H1 H2]]]. apply arun_lift_ok in H2 as [-> H2].
    apply (outerr_told g c a) in H1; [|exact Hh|discriminate]. destruct H1 as [res [M [R [Z0 [_ [Z1 _]]]]]].
    destruct (find _ l) as [k|] eqn:Ef; [|discriminate]. apply arun_ret_ok in H as [-> ->].
    eexists. split; [exact M|]. intros more. rewrite R. exists x. split; [exact Es|]. right. split; [exact Hl|].
    exists res, out, (ki_uids k), more. split; [reflexivity|]. split; [exact Z0|]. split; [exact Z1|].
    assert (Hk : map (fun k => (ki_id k, ki_uids k)) l = keys_in (L "pub") (L "sub") out) by (apply parse_keys; [discriminate|discriminate|exact H2]).
    rewrite <- Hk. eapply (find_first _ _ (fun k => (ki_id k, ki_uids k))) in Ef; [exact Ef|]. intros k'. apply ki_match_spec.
  - apply arun_ret_ok in H as [-> ->]. exists []. split; [apply moved_refl|]. intros more. exists x. split; [exact Es|]. left. auto.
Qed.
(** programs that write nothing *)
Definition no_write (X : Type) (o : cop X) : Prop := match o with CAppend _ _ | CRemoveIf _ | CRmTree => False | _ => True end.
Lemma moved_quiet {A} (p : prog cop A) s s' r : allowed no_write p -> arun p s = (s', r) -> exists gs, moved s s' gs.
Proof.
  intros Hp H. assert (s' = fst (arun p s)) as -> by (rewrite H; reflexivity). unfold arun.
  refine (run_allowed_inv (@astep E) no_write (fun s' => exists gs, moved s s' gs) p _ Hp s _).
  - intros X o s1 Ho [gs [T [R Lg]]]. destruct o; try destruct Ho; cbn [astep fst]; try (exists gs; repeat split; assumption).
    destruct (gpg (ring_at (a_rings s1) (argv_home argv)) argv inp tmp) as [r' res] eqn:Eg. cbn [fst].
    exists (gs ++ [GCall (argv_home argv) argv inp tmp]). unfold moved. cbn [a_trace a_rings a_logs]. rewrite rev_app_distr, rings_after_app, <- R, T. cbn [rev app rings_after gc_home gc_argv gc_in gc_tmp].
    rewrite Eg. repeat split. exact Lg.
  - exists []. apply moved_refl.
Qed.
Lemma imported_more l m p mode a data kh post : imported_in l p mode a data kh post -> exists post', imported_in (l ++ m) p mode a data kh (post ++ post') /\ post' = m.
Proof.
  intros [pre [res [err [-> [H1 [H2 [x [H3 H4]]]]]]]]. exists m. split; [|reflexivity]. exists pre, res, err. split; [rewrite <- app_assoc; reflexivity|].
  split; [exact H1|]. split; [exact H2|]. exists x. split; [exact H3|]. destruct H4 as [H4|[H4 [r [o [us [po [-> H5]]]]]]]; [left; exact H4|].
  right. split; [exact H4|]. exists r, o, us, (po ++ m). split; [reflexivity|exact H5].
Qed.
Lemma imported_before l m p mode a data kh post : imported_in l p mode a data kh post -> imported_in (m ++ l) p mode a data kh post.
Proof. intros [pre [res [err [-> H]]]]. exists (m ++ pre), res, err. split; [apply app_assoc|exact H]. Qed.
Lemma told_more l m c a kd kh : told_in l c a kd kh -> told_in (l ++ m) c a kd kh.
Proof.
  intros [p [data [post [H1 [H2 H3]]]]]. destruct (imported_more l m _ _ _ _ _ _ H2) as [post' [H4 ->]].
  exists p, data, (post ++ m). split; [exact H1|]. split; [exact H4|]. destruct H3 as [H3|[res [H3 H5]]]; [left; exact H3|].
  right. exists res. split; [apply in_or_app; left; exact H3|exact H5].
Qed.
Lemma told_before l m c a kd kh : told_in l c a kd kh -> told_in (m ++ l) c a kd kh.
Proof. intros [p [data [post [H1 [H2 H3]]]]]. exists p, data, post. split; [exact H1|]. split; [apply imported_before, H2|exact H3]. Qed.
Lemma nw_outerr g argv i t st d : allowed no_write (gpg_outerr g argv i t st d).
Proof. unfold gpg_outerr. apply allowed_bind; [apply allowed_perform; exact I|]. intros r. destruct (Z.eqb _ _); [constructor|].
  destruct (utf8 _); [|constructor]. destruct (if d then _ else _); [|constructor]. destruct (_ || _); constructor. Qed.
Lemma nw_find g err : allowed no_write (find_keyhandle g err).
Proof.
  unfold find_keyhandle, list_public_keyinfos, parse_list. destruct (search_key err); [|constructor]. destruct (Nat.leb _ _); [|constructor].
  apply allowed_bind; [apply allowed_bind; [apply nw_outerr|intros [o e]; apply allowed_lift]|]. intros l. destruct (find _ l); constructor.
Qed.
Lemma import_told g c a kd b s s' kh : gp_home g = home_of c a -> arun (import_keydata g kd b) s = (s', Ok kh) ->
  exists gs post, moved s s' gs /\ imported_in (runs (a_rings s) gs) (gp_path g) (cf_mode c) a kd kh post.
Proof.
  intros Hh H. unfold import_keydata in H. apply arun_bind_ok in H as [s1 [[out err] [H1 H]]].
  apply (outerr_told g c a) in H1; [|exact Hh|discriminate]. destruct H1 as [res [M1 [R1 [Z0 [Z1 _]]]]].
  apply arun_bind_ok in H as [s2 [kh0 [H2 H]]]. apply (find_told g c a) in H2; [|exact Hh]. destruct H2 as [gs2 [M2 N]].
  assert (Hx : kh = kh0 /\ exists gs3, moved s2 s' gs3).
  { destruct b; [|apply arun_ret_ok in H as [-> ->]; split; [reflexivity|exists []; apply moved_refl]].
    apply arun_bind_ok in H as [s3 [mini [H1 H]]]. unfold get_public_keydata in H1. apply arun_bind_ok in H1 as [s4 [[o e] [H1 H2]]]. apply arun_ret_ok in H2 as [-> ->].
    apply moved_quiet in H1 as [g1 M3]; [|apply nw_outerr].
    apply arun_bind_ok in H as [s5 [[o1 e1] [H1 H]]]. apply moved_quiet in H1 as [g2 M4]; [|apply nw_outerr].
    apply arun_bind_ok in H as [s6 [[o2 e2] [H1 H]]]. apply moved_quiet in H1 as [g3 M5]; [|apply nw_outerr].
    apply arun_bind_ok in H as [s7 [kh2 [H1 H]]]. apply moved_quiet in H1 as [g4 M6]; [|apply nw_find].
    apply arun_bind_ok in H as [s8 [u [H1 H]]]. apply arun_assert_ok in H1 as [-> H1]. apply arun_ret_ok in H as [-> ->].
    split; [reflexivity|]. eexists. eapply moved_two; [|exact M6]. eapply moved_two; [|exact M5]. eapply moved_two; [exact M3|exact M4]. }
  destruct Hx as [-> [gs3 M3]]. destruct (moved_two _ _ _ _ _ M1 M2) as [M12 R12]. destruct (moved_two _ _ _ _ _ M12 M3) as [M R].
  eexists _, _. split; [exact M|]. rewrite R, R12, R1. rewrite <- app_assoc. cbn [app]. exists [], res, err. split; [reflexivity|].
  split; [exact Z0|]. split; [exact Z1|]. apply N.
Qed.

(** ** What a call leaves in the logs *)
Definition unkeyed (e : entry) : Prop := match e with EMsg m => me_kh m = [] | EGossip g => ge_kh g = [] | _ => True end.
Definition keyed (e : entry) (kd : bytes) (kh : text) : Prop :=
  match e with EMsg m => me_keydata m = kd /\ me_kh m = kh | EGossip g => ge_keydata g = kd /\ ge_kh g = kh | _ => False end.
Definition fine_entry (s0 : ast) (l : list (gcall * gres)) (n : text) (e : entry) : Prop :=
  unkeyed e \/ exists a x c kd kh, n = peer_chain a x /\ isalnum a = true /\ exists_acct s0 a /\ config_of s0 a = Some c /\ keyed e kd kh /\ told_in l c a kd kh.
Definition since (s0 s : ast) (gs : list gcall) : Prop := a_trace s = rev gs ++ a_trace s0 /\ a_rings s = rings_after (a_rings s0) gs.
Definition J (s0 s : ast) : Prop := (exists gs, since s0 s gs /\
  forall n b, In b (alog s n) -> In b (alog s0 n) \/ fine_entry s0 (runs (a_rings s0) gs) n (bl_entry b)) /\
  (forall a, alog s (own_chain a) = alog s0 (own_chain a)).
Lemma since_unique s0 s g1 g2 : since s0 s g1 -> since s0 s g2 -> g1 = g2.
Proof. intros [H1 _] [H2 _]. rewrite H1 in H2. apply app_inv_tail in H2. rewrite <- (rev_involutive g1), H2, rev_involutive. reflexivity. Qed.
Lemma since_moved s0 s s' gs g1 : since s0 s gs -> moved s s' g1 -> since s0 s' (gs ++ g1) /\ runs (a_rings s0) (gs ++ g1) = runs (a_rings s0) gs ++ runs (a_rings s) g1.
Proof.
  intros [T R] [T1 [R1 _]]. unfold since. rewrite T1, T, rev_app_distr, app_assoc, rings_after_app, <- R, runs_app, <- R. auto.
Qed.
Lemma fine_more s0 l m n e : fine_entry s0 l n e -> fine_entry s0 (l ++ m) n e.
Proof. intros [H|[a [x [c [kd [kh [H1 [H2 [H3 [H4 [H5 H6]]]]]]]]]]]; [left; exact H|]. right. exists a, x, c, kd, kh. repeat (split; [assumption|]). apply told_more, H6. Qed.
Lemma J_moved s0 s s' g1 : J s0 s -> moved s s' g1 -> J s0 s'.
Proof.
  intros [[gs [Hs Hl]] Ho] M. assert (Ha : forall n, alog s' n = alog s n) by (intros n; unfold alog; rewrite (proj2 (proj2 M)); reflexivity).
  split; [|intros a; rewrite Ha; apply Ho].
  destruct (since_moved _ _ _ _ _ Hs M) as [H1 H2]. exists (gs ++ g1). split; [exact H1|]. intros n b Hb. rewrite Ha in Hb.
  destruct (Hl n b Hb) as [H|H]; [left; exact H|right]. rewrite H2. apply fine_more, H.
Qed.
Lemma J_append s0 s gs n e : J s0 s -> since s0 s gs -> (forall a, n <> own_chain a) -> fine_entry s0 (runs (a_rings s0) gs) n e -> J s0 (fst (astep (CAppend n e) s)).
Proof.
  intros [[gs' [Hs Hl]] Ho] Hs' Hn He. rewrite (since_unique _ _ _ _ Hs' Hs) in *. split.
  - exists gs'. split; [exact Hs|]. intros m b.
    unfold alog at 1. cbn [astep fst a_logs]. rewrite dget_dset. destruct (text_eqb_spec m n) as [->|Hm].
    + intros [<-|Hb]; [right; exact He|apply Hl, Hb].
    + intros Hb. apply Hl. exact Hb.
  - intros a. rewrite <- Ho. unfold alog at 1. cbn [astep fst a_logs]. rewrite dget_dset. destruct (text_eqb_spec (own_chain a) n) as [He'|_]; [|reflexivity].
    exfalso. apply (Hn a). symmetry. exact He'.
Qed.
Definition mild (X : Type) (o : cop X) : Prop :=
  match o with CRmTree | CRemoveIf _ => False | CAppend n e => unkeyed e /\ (forall a, n <> own_chain a) | _ => True end.
Definition steady (I : ast -> Prop) : Prop := forall X (o : cop X) s, mild X o -> I s -> I (fst (astep o s)).
Lemma J_steady s0 : steady (J s0).
Proof.
  intros X o s Ho HJ. destruct o; cbn [mild] in Ho; try exact HJ; try destruct Ho as [].
  - pose proof HJ as [[gs [Hs Hl]] _]. eapply J_append; [exact HJ|exact Hs|assumption|left; assumption].
  - destruct (moved_quiet (perform (CGpg argv inp tmp)) s (fst (arun (perform (CGpg argv inp tmp)) s)) (snd (arun (perform (CGpg argv inp tmp)) s))) as [g1 M];
      [apply allowed_perform; exact I|destruct (arun _ s); reflexivity|].
    apply (J_moved s0 s _ g1 HJ). revert M. unfold arun, perform. cbn [run]. destruct (astep (CGpg argv inp tmp) s) as [s1 x]. exact (fun M => M).
Qed.
Lemma J_refl s : J s s.
Proof. split; [|reflexivity]. exists []. split; [split; reflexivity|]. intros n b Hb. left. exact Hb. Qed.
Definition imp (s0 : ast) (p mode a kh : text) (s : ast) : Prop :=
  exists gs data post, since s0 s gs /\ imported_in (runs (a_rings s0) gs) p mode a data kh post.
Lemma imp_moved s0 p mode a kh s s' g1 : imp s0 p mode a kh s -> moved s s' g1 -> imp s0 p mode a kh s'.
Proof.
  intros [gs [data [post [Hs Hi]]]] M. destruct (since_moved _ _ _ _ _ Hs M) as [H1 H2]. destruct (imported_more _ (runs (a_rings s) g1) _ _ _ _ _ _ Hi) as [post' [H3 ->]].
  exists (gs ++ g1), data, (post ++ runs (a_rings s) g1). split; [exact H1|]. rewrite H2. exact H3.
Qed.
Lemma imp_any s0 p mode a kh X (o : cop X) s : match o with CRmTree => False | _ => True end -> imp s0 p mode a kh s -> imp s0 p mode a kh (fst (astep o s)).
Proof.
  intros Ho HJ. destruct o; try exact HJ; [destruct Ho|].
  destruct (moved_quiet (perform (CGpg argv inp tmp)) s (fst (arun (perform (CGpg argv inp tmp)) s)) (snd (arun (perform (CGpg argv inp tmp)) s))) as [g1 M];
      [apply allowed_perform; exact I|destruct (arun _ s); reflexivity|].
  apply (imp_moved s0 p mode a kh s _ g1 HJ). revert M. unfold arun, perform. cbn [run]. destruct (astep (CGpg argv inp tmp) s) as [s1 x]. exact (fun M => M).
Qed.
Lemma imp_steady s0 p mode a kh : steady (imp s0 p mode a kh).
Proof. intros X o s Ho. apply imp_any. destruct o; try exact I. exact Ho. Qed.
End ToldProofs.
