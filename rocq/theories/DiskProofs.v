(** Directories, files and permissions: proofs of C83. *)
From Verif Require Import Base PyStr Env Prog Chain Gpg Mime States Recommendation Account Cmdline Bot Fs Api Spec PeerSpec GpgSpec GpgMoreSpec
  VersionProofs GpgMoreProofs Disk DiskSpec.

Lemma path_eqb_spec p q : reflect (p = q) (path_eqb p q).
Proof.
  revert q. induction p as [|c p IH]; intros [|d q]; cbn [path_eqb]; try (constructor; congruence).
  destruct (text_eqb_spec c d) as [->|Hc]; cbn [andb]; [|constructor; congruence].
  destruct (IH q) as [->|Hp]; constructor; congruence.
Qed.
Lemma put_same s p n : d_node (put s p n) p = n.
Proof. cbn [put d_node]. destruct (path_eqb_spec p p); congruence. Qed.
Lemma put_other s p q n : q <> p -> d_node (put s p n) q = d_node s q.
Proof. intros H. cbn [put d_node]. destruct (path_eqb_spec q p); congruence. Qed.

(** ** Dying and running *)
Lemma dcrash_here A (p : prog dop A) s : dcrash p s s.
Proof. destruct p; left; reflexivity. Qed.
Lemma dcrash_run A (p : prog dop A) s : dcrash p s (fst (drun p s)).
Proof.
  revert s. induction p as [a|e|X o k IH]; intros s; [left; reflexivity|left; reflexivity|].
  unfold drun. cbn [run]. right; right. destruct (dstep X o s) as [s1 x]. cbn [fst snd]. apply (IH x s1).
Qed.
Lemma dcrash_bind A B (p : prog dop A) (f : A -> prog dop B) s s' : dcrash (bind p f) s s' ->
  dcrash p s s' \/ exists s1 a, drun p s = (s1, Ok a) /\ dcrash (f a) s1 s'.
Proof.
  revert s. induction p as [a|e|X o k IH]; intros s H.
  - right. exists s, a. split; [reflexivity|exact H].
  - left. exact H.
  - cbn [bind dcrash] in H. destruct H as [->|[H|H]]; [left; left; reflexivity|left; right; left; exact H|].
    unfold drun. cbn [run]. destruct (dstep X o s) as [s1 x] eqn:Es. cbn [fst snd] in H. apply IH in H as [H|[s2 [a [H1 H2]]]].
    + left. right; right. cbn [dcrash]. rewrite Es. exact H.
    + right. exists s2, a. split; [exact H1|exact H2].
Qed.
Lemma dcrash_ret A (a : A) s s' : dcrash (Ret a) s s' -> s' = s. Proof. intros [H|[]]; exact H. Qed.
Lemma dcrash_raise A e s s' : dcrash (@Raise dop A e) s s' -> s' = s. Proof. intros [H|[]]; exact H. Qed.
Lemma dcrash_lift A (r : result A) s s' : dcrash (lift r) s s' -> s' = s.
Proof. destruct r; [apply dcrash_ret|apply dcrash_raise]. Qed.
Lemma dcrash_op X (o : dop (result X)) s s' : dcrash (try_op o) s s' -> s' = s \/ dtorn o s s' \/ s' = fst (dstep _ o s).
Proof.
  unfold try_op, perform. cbn [bind dcrash]. intros [H|[H|H]]; [left; exact H|right; left; exact H|]. apply dcrash_lift in H. right; right. exact H.
Qed.
Lemma dcrash_exists p s s' : dcrash (exists_ p) s s' -> s' = s.
Proof. intros [H|[[]|H]]; [exact H|]. apply dcrash_ret in H. exact H. Qed.

Lemma drun_bind A B (p : prog dop A) (f : A -> prog dop B) s :
  drun (bind p f) s = match drun p s with (s', Ok a) => drun (f a) s' | (s', Err e) => (s', Err e) end.
Proof. apply run_bind. Qed.
Lemma drun_exists p s : drun (exists_ p) s = (s, Ok (there s p)). Proof. reflexivity. Qed.
Lemma drun_op X (o : dop (result X)) s : drun (try_op o) s = dstep _ o s.
Proof. unfold drun, try_op, perform. cbn [bind run]. destruct (dstep _ o s) as [s1 [a|e]]; reflexivity. Qed.
Lemma drun_lift A (r : result A) s : drun (lift r) s = (s, r). Proof. destruct r; reflexivity. Qed.

(** ** Directories *)
Definition only_dirs (s s' : disk) (p : path) : Prop :=
  d_umask s' = d_umask s /\ d_room s' = d_room s /\ kept s s' /\
  forall q n, added s s' q n -> usual_dir s n /\ (q = p \/ above q p).
Lemma only_dirs_refl s p : only_dirs s s p.
Proof. split; [reflexivity|]. split; [reflexivity|]. split; [intros q n H; exact H|]. intros q n [H1 H2]. congruence. Qed.
Lemma kept_trans a b c : kept a b -> kept b c -> kept a c.
Proof. intros H1 H2 q n H. apply H2, H1, H. Qed.
Lemma only_dirs_trans a b c p p' : (p = p' \/ above p p') -> only_dirs a b p -> only_dirs b c p' -> only_dirs a c p'.
Proof.
  intros Hp [A1 [A4 [A2 A3]]] [B1 [B4 [B2 B3]]]. split; [congruence|]. split; [congruence|]. split; [eapply kept_trans; eassumption|].
  intros q n [H1 H2]. destruct (d_node b q) as [n'|] eqn:Eb.
  - pose proof (B2 _ _ Eb) as H. assert (n = n') by congruence. subst n'. destruct (A3 q n) as [Hu Hq]; [split; assumption|]. split; [exact Hu|].
    destruct Hp as [->|[cs [Hc ->]]]; [exact Hq|]. right. destruct Hq as [->|[ds [Hd ->]]]; [exists cs; auto|].
    exists (cs ++ ds). split; [|apply app_assoc]. destruct cs; [congruence|discriminate].
  - destruct (B3 q n) as [Hu Hq]; [split; assumption|]. split; [|exact Hq]. unfold usual_dir in *. rewrite <- A1. exact Hu.
Qed.
Lemma mkdir_dirs p s : only_dirs s (fst (dstep _ (DMkdir p) s)) p /\
  (snd (dstep _ (DMkdir p) s) = Ok tt -> d_node s p = None /\ exists n, d_node (fst (dstep _ (DMkdir p) s)) p = Some n /\ usual_dir s n).
Proof.
  destruct p as [|c up]; cbn [dstep]; [split; [apply only_dirs_refl|discriminate]|].
  destruct (is_dir s up && negb (there s (c :: up))) eqn:Eb; cbn [fst snd]; [|split; [apply only_dirs_refl|discriminate]].
  apply andb_true_iff in Eb as [_ Eb]. assert (Hn : d_node s (c :: up) = None) by (unfold there in Eb; destruct (d_node s (c :: up)); [discriminate|reflexivity]).
  split.
  - split; [reflexivity|]. split; [reflexivity|]. split.
    + intros q n H. rewrite put_other; [exact H|]. intros ->. congruence.
    + intros q n [H1 H2]. destruct (path_eqb_spec q (c :: up)) as [->|Hq].
      * rewrite put_same in H2. injection H2 as <-. split; [reflexivity|left; reflexivity].
      * rewrite put_other in H2 by exact Hq. congruence.
  - intros _. split; [exact Hn|]. eexists. split; [apply put_same|reflexivity].
Qed.
Lemma makedirs_crash p s s' : dcrash (makedirs p) s s' -> only_dirs s s' p.
Proof.
  revert s s'. induction p as [|c up IH]; intros s s' H; cbn [makedirs] in H.
  - apply dcrash_op in H as [->|[Ht| ->]]; [apply only_dirs_refl|destruct Ht|]. apply mkdir_dirs.
  - apply dcrash_bind in H as [H|[s1 [b [H1 H]]]].
    { apply dcrash_exists in H as ->. apply only_dirs_refl. }
    rewrite drun_exists in H1. injection H1 as <- <-.
    assert (Hup : above up (c :: up)) by (exists [c]; split; [discriminate|reflexivity]).
    assert (Hr : forall s2, dcrash (if there s up then Ret tt else makedirs up) s s2 -> only_dirs s s2 up).
    { intros s2 H2. destruct (there s up); [apply dcrash_ret in H2 as ->; apply only_dirs_refl|apply IH, H2]. }
    apply dcrash_bind in H as [H|[s2 [a [H1 H]]]].
    + apply Hr in H. eapply only_dirs_trans; [right; exact Hup|exact H|apply only_dirs_refl].
    + assert (Hs : only_dirs s s2 up). { apply Hr. pose proof (dcrash_run _ (if there s up then Ret tt else makedirs up) s) as Hc. rewrite H1 in Hc. exact Hc. }
      apply (only_dirs_trans s s2 s' up (c :: up)); [right; exact Hup|exact Hs|].
      apply dcrash_op in H as [->|[Ht| ->]]; [apply only_dirs_refl|destruct Ht|]. apply mkdir_dirs.
Qed.
Lemma makedirs_run p s s' r : drun (makedirs p) s = (s', r) -> only_dirs s s' p.
Proof. intros H. apply makedirs_crash. pose proof (dcrash_run _ (makedirs p) s) as Hc. rewrite H in Hc. exact Hc. Qed.
Lemma makedirs_ok p s s' : drun (makedirs p) s = (s', Ok tt) -> exists n, d_node s' p = Some n /\ (d_node s p = None -> usual_dir s n).
Proof.
  intros H. pose proof (makedirs_run _ _ _ _ H) as [_ [_ [_ Ha]]]. destruct p as [|c up]; cbn [makedirs] in H.
  - rewrite drun_op in H. discriminate H.
  - rewrite drun_bind, drun_exists, drun_bind in H. destruct (drun (if there s up then Ret tt else makedirs up) s) as [s1 [[]|e]] eqn:E1; [|discriminate].
    rewrite drun_op in H. pose proof (proj2 (mkdir_dirs (c :: up) s1)) as Hm. rewrite H in Hm. cbn [fst snd] in Hm. destruct (Hm eq_refl) as [_ [n [Hn _]]].
    exists n. split; [exact Hn|]. intros Hs. apply (Ha (c :: up) n). split; assumption.
Qed.

(** it can be done *)
Lemma only_dirs_makeable s s' p q : only_dirs s s' q -> makeable s p -> makeable s' p.
Proof.
  intros [_ [_ [Hk Ha]]] [[m Hm] H]. split; [exists m; apply Hk, Hm|]. intros x n Hx Hn.
  destruct (d_node s x) as [n'|] eqn:Es; [rewrite (Hk _ _ Es) in Hn; injection Hn as <-; eapply H; eassumption|].
  destruct (Ha x n) as [Hu _]; [split; assumption|]. eexists. exact Hu.
Qed.
Lemma makeable_above s p q : above q p -> makeable s p -> makeable s q.
Proof.
  intros [cs [Hc ->]] [Hr H]. split; [exact Hr|]. intros x n Hx Hn. apply (H x n); [|exact Hn]. right.
  destruct Hx as [->|[ds [Hd ->]]]; [exists cs; auto|]. exists (cs ++ ds). split; [|apply app_assoc]. destruct cs; [congruence|discriminate].
Qed.
Lemma makedirs_can p s : makeable s p -> d_node s p = None -> exists s', drun (makedirs p) s = (s', Ok tt).
Proof.
  revert s. induction p as [|c up IH]; intros s Hm Hn; [destruct Hm as [[m Hm] _]; congruence|].
  cbn [makedirs]. rewrite drun_bind, drun_exists, drun_bind.
  assert (Hup : above up (c :: up)) by (exists [c]; split; [discriminate|reflexivity]).
  assert (Hs : exists s1, drun (if there s up then Ret tt else makedirs up) s = (s1, Ok tt) /\ (exists m, d_node s1 up = Some (NDir m)) /\ d_node s1 (c :: up) = None).
  { unfold there. destruct (d_node s up) as [n|] eqn:Eu.
    - exists s. split; [reflexivity|]. split; [|exact Hn]. destruct (proj2 Hm up n (or_intror Hup) Eu) as [m ->]. exists m. exact Eu.
    - destruct (IH s (makeable_above _ _ _ Hup Hm) Eu) as [s1 H1]. exists s1. split; [exact H1|].
      destruct (makedirs_ok _ _ _ H1) as [n [H2 H3]]. apply H3 in Eu. split; [eexists; rewrite H2; f_equal; exact Eu|].
      destruct (d_node s1 (c :: up)) as [n'|] eqn:E1; [|reflexivity]. destruct (makedirs_run _ _ _ _ H1) as [_ [_ [_ Ha]]].
      destruct (Ha (c :: up) n') as [_ [Hx|[cs [_ Hx]]]]; [split; assumption| |]; exfalso.
      + apply (f_equal (@length text)) in Hx. cbn [length] in Hx. lia.
      + apply (f_equal (@length text)) in Hx. rewrite app_length in Hx. cbn [length] in Hx. lia. }
  destruct Hs as [s1 [H1 [[m Hd] H2]]]. rewrite H1, drun_op. cbn [dstep]. unfold is_dir, there. rewrite Hd, H2. cbn [andb negb]. eexists. reflexivity.
Qed.

Theorem c83_states : forall dir s,
  (forall s', dcrash (new_states dir) s s' -> kept s s' /\ forall q n, added s s' q n -> usual_dir s n /\ (q = L "blocks" :: dir \/ above q (L "blocks" :: dir))) /\
  (makeable s (L "blocks" :: dir) -> exists s', drun (new_states dir) s = (s', Ok tt) /\ exists m, d_node s' (L "blocks" :: dir) = Some (NDir m)) /\
  (forall s' s'', drun (new_states dir) s = (s', Ok tt) -> kept s' s'' -> drun (new_states dir) s'' = (s'', Ok tt)).
Proof.
  intros dir s. set (p := L "blocks" :: dir). split; [|split].
  - intros s' H. unfold new_states in H. fold p in H. apply dcrash_bind in H as [H|[s1 [b [H1 H]]]].
    + apply dcrash_exists in H as ->. apply (only_dirs_refl s p).
    + rewrite drun_exists in H1. injection H1 as <- <-. destruct (there s p).
      * apply dcrash_ret in H as ->. apply (only_dirs_refl s p).
      * apply makedirs_crash in H. apply H.
  - intros Hm. unfold new_states. fold p. rewrite drun_bind, drun_exists. unfold there. destruct (d_node s p) as [n|] eqn:En.
    + exists s. split; [reflexivity|]. destruct (proj2 Hm p n (or_introl eq_refl) En) as [m ->]. exists m. exact En.
    + destruct (makedirs_can p s Hm En) as [s' H]. exists s'. split; [exact H|]. destruct (makedirs_ok _ _ _ H) as [n [H1 H2]].
      apply H2 in En. eexists. rewrite H1. f_equal. exact En.
  - intros s' s'' H Hk. assert (Hn : exists n, d_node s' p = Some n).
    { unfold new_states in H. fold p in H. rewrite drun_bind, drun_exists in H. unfold there in H. destruct (d_node s p) as [n|] eqn:En.
      - injection H as <-. exists n. exact En.
      - destruct (makedirs_ok _ _ _ H) as [n [H1 _]]. exists n. exact H1. }
    destruct Hn as [n Hn]. unfold new_states. fold p. rewrite drun_bind, drun_exists. unfold there. rewrite (Hk _ _ Hn). reflexivity.
Qed.

Section DiskProofs.
Context {E : Env}.

(** ** The home directory of gpg *)
(** after the first part of _ensure_init *)
Definition with_home (s s' : disk) (h : path) : Prop :=
  d_umask s' = d_umask s /\ d_room s' = d_room s /\ kept s s' /\
  forall q n, added s s' q n -> (usual_dir s n /\ (q = h \/ above q h)) \/ (q = h /\ owner_dir n).
Lemma only_dirs_home s s' h : only_dirs s s' h -> with_home s s' h.
Proof. intros [H1 [H2 [H3 H4]]]. split; [exact H1|]. split; [exact H2|]. split; [exact H3|]. intros q n H. left. apply H4, H. Qed.
Lemma chmod_home s s1 h : only_dirs s s1 h -> d_node s h = None -> d_node s1 h <> None ->
  with_home s (fst (dstep _ (DChmod h private_dir) s1)) h /\ exists n, d_node (fst (dstep _ (DChmod h private_dir) s1)) h = Some n /\ owner_dir n /\
    snd (dstep _ (DChmod h private_dir) s1) = Ok tt /\ forall q, q <> h -> d_node (fst (dstep _ (DChmod h private_dir) s1)) q = d_node s1 q.
Proof.
  intros Hd Hs H1. destruct Hd as [A1 [A2 [A3 A4]]]. destruct (d_node s1 h) as [n|] eqn:En; [|congruence].
  destruct (A4 h n) as [Hu _]; [split; assumption|]. unfold usual_dir in Hu. subst n. cbn [dstep]. rewrite En. cbn [fst snd]. split.
  - split; [exact A1|]. split; [exact A2|]. split.
    + intros q n Hq. rewrite put_other; [apply A3, Hq|]. intros ->. congruence.
    + intros q n [B1 B2]. destruct (path_eqb_spec q h) as [->|Hq].
      * rewrite put_same in B2. injection B2 as <-. right. split; reflexivity.
      * rewrite put_other in B2 by exact Hq. left. apply A4. split; assumption.
  - eexists. split; [apply put_same|]. split; [reflexivity|]. split; [reflexivity|]. intros q Hq. apply put_other, Hq.
Qed.
Definition home_part (h : path) : prog dop unit :=
  b <- exists_ h ;; if b then Ret tt else makedirs h ;;; try_op (DChmod h private_dir).
Definition conf_part (h : path) (p : text) : prog dop unit :=
  w <- lift (wants_agent_conf p) ;;
  if w then
    b' <- exists_ (agent_conf h) ;;
    if b' then Ret tt else try_op (DOpen (agent_conf h)) ;;; try_op (DWrite (agent_conf h) conf_text)
  else Ret tt.
Lemma init_parts h p : ensure_init (Some h) p = (home_part h ;;; conf_part h p).
Proof. reflexivity. Qed.
Lemma home_crash h s s' : dcrash (home_part h) s s' -> with_home s s' h.
Proof.
  unfold home_part. intros H. apply dcrash_bind in H as [H|[s1 [b [H1 H]]]].
  { apply dcrash_exists in H as ->. apply only_dirs_home, only_dirs_refl. }
  rewrite drun_exists in H1. injection H1 as <- <-. unfold there in H. destruct (d_node s h) as [n|] eqn:En.
  { apply dcrash_ret in H as ->. apply only_dirs_home, only_dirs_refl. }
  apply dcrash_bind in H as [H|[s1 [[] [H1 H]]]]; [apply only_dirs_home, makedirs_crash, H|].
  pose proof (makedirs_run _ _ _ _ H1) as Hd. destruct (makedirs_ok _ _ _ H1) as [n [Hn _]].
  apply dcrash_op in H as [->|[Ht| ->]]; [apply only_dirs_home, Hd|destruct Ht|]. apply chmod_home; [exact Hd|exact En|congruence].
Qed.
Lemma home_ok h s s' : drun (home_part h) s = (s', Ok tt) ->
  (exists n, d_node s h = Some n /\ s' = s) \/ (d_node s h = None /\ exists n, d_node s' h = Some n /\ owner_dir n /\ forall q n', q <> h -> added s s' q n' -> usual_dir s n' /\ above q h).
Proof.
  unfold home_part. rewrite drun_bind, drun_exists. unfold there. destruct (d_node s h) as [n|] eqn:En.
  { intros [= <-]. left. exists n. auto. }
  intros H. right. split; [reflexivity|]. rewrite drun_bind in H. destruct (drun (makedirs h) s) as [s1 [[]|e]] eqn:E1; [|discriminate]. rewrite drun_op in H.
  pose proof (makedirs_run _ _ _ _ E1) as Hd. destruct (makedirs_ok _ _ _ E1) as [n [Hn _]].
  destruct (chmod_home s s1 h Hd En ltac:(congruence)) as [_ [n1 [H1 [H2 [_ H3]]]]]. rewrite H in H1, H3. cbn [fst] in H1, H3.
  exists n1. split; [exact H1|]. split; [exact H2|]. intros q n' Hq [B1 B2]. rewrite H3 in B2 by exact Hq.
  destruct Hd as [_ [_ [_ Ha]]]. destruct (Ha q n') as [Hu [Hx|Hx]]; [split; assumption|contradiction|auto].
Qed.
Lemma home_can h s : makeable s h -> exists s', drun (home_part h) s = (s', Ok tt).
Proof.
  intros Hm. unfold home_part. rewrite drun_bind, drun_exists. unfold there. destruct (d_node s h) as [n|] eqn:En; [eexists; reflexivity|].
  destruct (makedirs_can h s Hm En) as [s1 H1]. rewrite drun_bind, H1, drun_op. destruct (makedirs_ok _ _ _ H1) as [n [Hn _]].
  destruct (chmod_home s s1 h (makedirs_run _ _ _ _ H1) En ltac:(congruence)) as [_ [n1 [_ [_ [H2 _]]]]].
  destruct (dstep _ (DChmod h private_dir) s1) as [s2 r]. cbn [snd] in H2. rewrite H2. eexists. reflexivity.
Qed.

(** the file *)
Lemma conf_opened s h : d_node s (agent_conf h) = None ->
  (fst (dstep _ (DOpen (agent_conf h)) s) = s /\ snd (dstep _ (DOpen (agent_conf h)) s) = Err OtherError /\ is_dir s h = false) \/
  (dstep _ (DOpen (agent_conf h)) s = (put s (agent_conf h) (Some (NFile (file_mode s) [])), Ok tt) /\ is_dir s h = true).
Proof. intros H. cbn [dstep agent_conf]. unfold agent_conf in H. rewrite H. destruct (is_dir s h); [right|left]; repeat split; reflexivity. Qed.
Definition conf_added (s s' : disk) (h : path) (x : bytes) : Prop :=
  same_but (conf_in h) s s' /\ exists n, d_node s' (conf_in h) = Some n /\ usual_file s x n.
Lemma conf_crash h p s s' : dcrash (conf_part h p) s s' ->
  s' = s \/ (d_node s (conf_in h) = None /\ exists x y, conf_line = x ++ y /\ conf_added s s' h x).
Proof.
  unfold conf_part. intros H. apply dcrash_bind in H as [H|[s1 [w [H1 H]]]]; [apply dcrash_lift in H; auto|].
  rewrite drun_lift in H1. injection H1 as <- Hw. destruct w; [|apply dcrash_ret in H; auto].
  apply dcrash_bind in H as [H|[s1 [b [H1 H]]]]; [apply dcrash_exists in H; auto|].
  rewrite drun_exists in H1. injection H1 as <- <-. unfold there in H. destruct (d_node s (agent_conf h)) as [n|] eqn:En; [apply dcrash_ret in H; auto|].
  destruct (conf_opened s h En) as [[Ho [Ho' _]]|[Ho _]].
  { left. apply dcrash_bind in H as [H|[s1 [a [H1 H]]]].
    - apply dcrash_op in H as [->|[Ht| ->]]; [reflexivity|destruct Ht|exact Ho].
    - rewrite drun_op in H1. rewrite H1 in Ho'. discriminate Ho'. }
  apply dcrash_bind in H as [H|[s1 [a [H1 H]]]].
  { apply dcrash_op in H as [->|[Ht| ->]]; [left; reflexivity|destruct Ht|]. rewrite Ho. cbn [fst]. right. split; [exact En|].
    exists [], conf_line. split; [reflexivity|]. split; [intros q Hq; apply put_other, Hq|]. eexists. split; [apply put_same|reflexivity]. }
  rewrite drun_op, Ho in H1. injection H1 as <- _. right. split; [exact En|]. set (s1 := put s (agent_conf h) (Some (NFile (file_mode s) []))) in *.
  assert (H1 : forall x k, conf_added s (with_room (put s1 (agent_conf h) (Some (NFile (file_mode s) ([] ++ x)))) k) h x).
  { intros x k. split.
    - intros q Hq. unfold with_room. cbn [d_node]. change (d_node (put s1 (agent_conf h) (Some (NFile (file_mode s) ([] ++ x)))) q = d_node s q).
      rewrite put_other by exact Hq. unfold s1. apply put_other, Hq.
    - eexists. split; [|reflexivity]. unfold with_room. cbn [d_node]. exact (put_same s1 _ _). }
  apply dcrash_op in H as [->|[Ht| ->]].
  - exists [], conf_line. split; [reflexivity|]. split; [intros q Hq; apply put_other, Hq|]. eexists. split; [apply put_same|reflexivity].
  - destruct Ht as [m [c [x [y [T1 [T2 [_ ->]]]]]]]. unfold s1 in T1. rewrite put_same in T1. injection T1 as <- <-. exists x, y. split; [exact T2|]. apply H1.
  - cbn [dstep]. unfold s1 at 1 5. rewrite !put_same. cbn [fst]. exists (firstn (d_room s1) conf_text), (skipn (d_room s1) conf_text).
    split; [symmetry; apply firstn_skipn|]. apply H1.
Qed.
Lemma conf_ok h p s s' : drun (conf_part h p) s = (s', Ok tt) -> exists b, wants_agent_conf p = Ok b /\
  ((s' = s /\ (b = true -> d_node s (conf_in h) <> None)) \/ (b = true /\ d_node s (conf_in h) = None /\ conf_added s s' h conf_line)).
Proof.
  unfold conf_part. rewrite drun_bind, drun_lift. destruct (wants_agent_conf p) as [b|e]; [|discriminate]. intros H. exists b. split; [reflexivity|].
  destruct b; [|injection H as <-; left; split; [reflexivity|discriminate]]. rewrite drun_bind, drun_exists in H. unfold there in H.
  destruct (d_node s (agent_conf h)) as [n|] eqn:En.
  { injection H as <-. left. split; [reflexivity|]. intros _. change (conf_in h) with (agent_conf h). congruence. }
  right. split; [reflexivity|]. split; [exact En|]. rewrite drun_bind, drun_op in H. destruct (conf_opened s h En) as [[_ [Ho' _]]|[Ho _]].
  { destruct (dstep _ (DOpen (agent_conf h)) s) as [s1 r]. cbn [snd] in Ho'. rewrite Ho' in H. discriminate. }
  rewrite Ho in H. rewrite drun_op in H. cbn [dstep] in H. rewrite put_same in H.
  set (s1 := put s (agent_conf h) (Some (NFile (file_mode s) []))) in *. destruct (Nat.leb_spec (length conf_text) (d_room s1)) as [Hl|]; [|discriminate].
  injection H as <-. rewrite firstn_all2 by exact Hl. split.
  - intros q Hq. unfold with_room. cbn [d_node]. change (d_node (put s1 (agent_conf h) (Some (NFile (file_mode s) ([] ++ conf_text)))) q = d_node s q).
    rewrite put_other by exact Hq. unfold s1. apply put_other, Hq.
  - eexists. split; [|reflexivity]. unfold with_room. cbn [d_node]. exact (put_same s1 _ _).
Qed.
Lemma conf_not_above h : ~ above (conf_in h) h /\ conf_in h <> h.
Proof.
  split.
  - intros [cs [_ H]]. apply (f_equal (@length text)) in H. rewrite app_length in H. cbn [length conf_in] in H. lia.
  - intros H. apply (f_equal (@length text)) in H. cbn [length conf_in] in H. lia.
Qed.

Theorem c83_no_home : forall gpgbin s s', dcrash (new_bingpg None gpgbin) s s' -> s' = s.
Proof.
  intros gpgbin s s' H. unfold new_bingpg in H. destruct (find_executable gpgbin); [|apply dcrash_raise in H; exact H].
  cbn [ensure_init bind] in H. apply dcrash_ret in H. exact H.
Qed.
Theorem c83_not_found : forall home gpgbin s s', (forall p, ~ located gpgbin p) -> dcrash (new_bingpg home gpgbin) s s' ->
  s' = s /\ drun (new_bingpg home gpgbin) s = (s, Err ValueError).
Proof.
  intros home gpgbin s s' Hn H. unfold new_bingpg in *. destruct (find_executable gpgbin) as [p|] eqn:Ef.
  - exfalso. apply (Hn p). apply ProgProofs.located_found. exact Ef.
  - apply dcrash_raise in H. split; [exact H|reflexivity].
Qed.
(** at any time *)
Theorem c83_any_time : forall h gpgbin s s', dcrash (new_bingpg (Some h) gpgbin) s s' ->
  kept s s' /\
  forall q n, added s s' q n ->
    (usual_dir s n /\ (q = h \/ above q h)) \/ (q = h /\ owner_dir n) \/
    (q = conf_in h /\ exists x y, conf_line = x ++ y /\ usual_file s x n).
Proof.
  intros h gpgbin s s' H. unfold new_bingpg in H. destruct (find_executable gpgbin) as [p|];
    [|apply dcrash_raise in H as ->; split; [intros q n Hq; exact Hq|intros q n [H1 H2]; congruence]].
  assert (Hi : dcrash (ensure_init (Some h) p) s s').
  { apply dcrash_bind in H as [H|[s1 [[] [H1 H]]]]; [exact H|]. apply dcrash_ret in H as ->. pose proof (dcrash_run _ (ensure_init (Some h) p) s) as Hc. rewrite H1 in Hc. exact Hc. }
  clear H. rewrite init_parts in Hi. apply dcrash_bind in Hi as [H|[s1 [[] [H1 H]]]].
  - apply home_crash in H as [_ [_ [Hk Ha]]]. split; [exact Hk|]. intros q n Hq. destruct (Ha q n Hq) as [Hx|Hx]; auto.
  - assert (Hh : with_home s s1 h). { apply home_crash. pose proof (dcrash_run _ (home_part h) s) as Hc. rewrite H1 in Hc. exact Hc. }
    destruct Hh as [Hu [_ [Hk Ha]]]. apply conf_crash in H as [->|[Hn [x [y [Hxy [Hs [nc [Hc1 Hc2]]]]]]]].
    + split; [exact Hk|]. intros q n Hq. destruct (Ha q n Hq) as [Hx|Hx]; auto.
    + assert (Hsn : d_node s (conf_in h) = None).
      { destruct (d_node s (conf_in h)) as [n|] eqn:En; [|reflexivity]. apply Hk in En. congruence. }
      split.
      * intros q n Hq. rewrite Hs; [apply Hk, Hq|]. intros ->. congruence.
      * intros q n [B1 B2]. destruct (path_eqb_spec q (conf_in h)) as [->|Hq].
        -- right; right. split; [reflexivity|]. exists x, y. split; [exact Hxy|]. assert (n = nc) by congruence. subst n.
           unfold usual_file in *. rewrite <- Hu. exact Hc2.
        -- rewrite Hs in B2 by exact Hq. destruct (Ha q n) as [Hx|Hx]; [split; assumption|auto|auto].
Qed.
(** at the end *)
Theorem c83_done : forall h gpgbin s s' g, drun (new_bingpg (Some h) gpgbin) s = (s', Ok g) ->
  exists p, located gpgbin p /\ g = BinGPG (Some (path_text h)) p /\ mk_bingpg (Some (path_text h)) gpgbin = Ok g /\
    kept s s' /\
    (d_node s h = None -> exists n, d_node s' h = Some n /\ owner_dir n) /\
    (forall ns, tells_version p ns -> d_node s (conf_in h) = None ->
       (from_2_0 ns /\ ~ from_2_1_12 ns /\ exists n, d_node s' (conf_in h) = Some n /\ usual_file s conf_line n) \/
       (~ (from_2_0 ns /\ ~ from_2_1_12 ns) /\ d_node s' (conf_in h) = None)) /\
    (forall q n, q <> h -> q <> conf_in h -> added s s' q n -> d_node s h = None /\ above q h /\ usual_dir s n) /\
    (forall s'', kept s' s'' -> drun (new_bingpg (Some h) gpgbin) s'' = (s'', Ok g)).
Proof.
  intros h gpgbin s s' g H.
  assert (Hcr : dcrash (new_bingpg (Some h) gpgbin) s s').
  { pose proof (dcrash_run _ (new_bingpg (Some h) gpgbin) s) as Hc. rewrite H in Hc. exact Hc. }
  destruct (c83_any_time _ _ _ _ Hcr) as [Hk _]. clear Hcr. unfold new_bingpg, mk_bingpg in *. destruct (find_executable gpgbin) as [p|] eqn:Ef; [|discriminate].
  exists p. split; [apply ProgProofs.located_found; exact Ef|]. rewrite drun_bind, init_parts, drun_bind in H.
  destruct (drun (home_part h) s) as [s1 [[]|e]] eqn:E1; [|discriminate]. destruct (drun (conf_part h p) s1) as [s2 [[]|e]] eqn:E2; [|discriminate].
  injection H as <- <-. split; [reflexivity|]. destruct (conf_ok _ _ _ _ E2) as [b [Hb Hc]]. cbn [option_map]. rewrite Hb. cbn [rbind]. split; [reflexivity|]. split; [exact Hk|].
  pose proof (home_ok _ _ _ E1) as Hh. destruct (conf_not_above h) as [Hca Hcn].
  assert (Hs12 : same_but (conf_in h) s1 s2). { destruct Hc as [[-> _]|[_ [_ [Hs _]]]]; [intros q _; reflexivity|exact Hs]. }
  assert (Hum : d_umask s1 = d_umask s).
  { pose proof (dcrash_run _ (home_part h) s) as Hx. rewrite E1 in Hx. apply home_crash in Hx. apply Hx. }
  split; [|split; [|split]].
  - intros Hn. destruct Hh as [[n [Hx _]]|[_ [n [H1 [H2 _]]]]]; [congruence|]. exists n. split; [|exact H2]. rewrite Hs12; [exact H1|congruence].
  - intros ns Hns Hn. destruct (c78_agent_conf p ns Hns) as [b' [Hb' Hi]]. assert (b' = b) by congruence. subst b'.
    assert (Hn1 : d_node s1 (conf_in h) = None).
    { destruct Hh as [[n [_ ->]]|[_ [n [_ [_ Ha]]]]]; [exact Hn|]. destruct (d_node s1 (conf_in h)) as [n'|] eqn:En; [|reflexivity].
      destruct (Ha (conf_in h) n' Hcn) as [_ Hx]; [split; assumption|contradiction]. }
    destruct Hc as [[-> Hc]|[-> [_ [_ [n [Hc1 Hc2]]]]]].
    + right. split; [|exact Hn1]. intros Hx. apply Hi in Hx. apply (Hc Hx). exact Hn1.
    + left. destruct Hi as [Hi _]. destruct (Hi eq_refl) as [H1 H2]. split; [exact H1|]. split; [exact H2|]. exists n. split; [exact Hc1|].
      unfold usual_file in *. rewrite <- Hum. exact Hc2.
  - intros q n Hq Hqc [B1 B2]. rewrite Hs12 in B2 by exact Hqc. destruct Hh as [[n' [_ ->]]|[Hn [n' [_ [_ Ha]]]]]; [congruence|].
    split; [exact Hn|]. destruct (Ha q n Hq) as [Hu Hx]; [split; assumption|]. auto.
  - intros s'' Hk2. assert (Hx : exists n, d_node s2 h = Some n).
    { rewrite Hs12 by congruence. destruct Hh as [[n [Hx ->]]|[_ [n [Hx _]]]]; eauto. }
    destruct Hx as [n Hx]. apply Hk2 in Hx. rewrite drun_bind, init_parts, drun_bind. unfold home_part. rewrite drun_bind, drun_exists. unfold there. rewrite Hx.
    change (drun (Ret tt) s'') with (s'', @Ok unit tt). cbv iota. unfold conf_part. rewrite drun_bind, drun_lift, Hb. destruct b; [|reflexivity].
    assert (Hy : exists n, d_node s2 (conf_in h) = Some n).
    { destruct Hc as [[-> Hc]|[_ [_ [_ [n' [Hc1 _]]]]]]; [|eauto]. destruct (d_node s1 (conf_in h)); [eauto|]. destruct (Hc eq_refl eq_refl). }
    destruct Hy as [n' Hy]. apply Hk2 in Hy. rewrite drun_bind, drun_exists. unfold there. change (agent_conf h) with (conf_in h). rewrite Hy. reflexivity.
Qed.
(** it can be done *)
Theorem c83_can : forall h gpgbin p ns s, located gpgbin p -> tells_version p ns -> makeable s h -> length conf_line <= d_room s ->
  exists s', drun (new_bingpg (Some h) gpgbin) s = (s', Ok (BinGPG (Some (path_text h)) p)).
Proof.
  intros h gpgbin p ns s Hl Hv Hm Hr. unfold new_bingpg. apply ProgProofs.located_found in Hl. rewrite Hl.
  rewrite drun_bind, init_parts, drun_bind. destruct (home_can h s Hm) as [s1 H1]. rewrite H1.
  assert (Hh : with_home s s1 h). { apply home_crash. pose proof (dcrash_run _ (home_part h) s) as Hx. rewrite H1 in Hx. exact Hx. }
  assert (Hd : is_dir s1 h = true).
  { unfold is_dir. destruct (home_ok _ _ _ H1) as [[n [Hx ->]]|[_ [n [Hx [Ho _]]]]].
    - destruct (proj2 Hm h n (or_introl eq_refl) Hx) as [m ->]. rewrite Hx. reflexivity.
    - unfold owner_dir in Ho. subst n. rewrite Hx. reflexivity. }
  assert (Hc : exists s2, drun (conf_part h p) s1 = (s2, Ok tt)).
  { unfold conf_part. rewrite drun_bind, drun_lift. destruct (c78_agent_conf p ns Hv) as [b [-> _]]. destruct b; [|eexists; reflexivity].
    rewrite drun_bind, drun_exists. unfold there. destruct (d_node s1 (agent_conf h)) as [n|] eqn:En; [eexists; reflexivity|].
    rewrite drun_bind, drun_op. destruct (conf_opened s1 h En) as [[_ [_ Hx]]|[Ho _]]; [congruence|]. rewrite Ho, drun_op. cbn [dstep]. rewrite put_same.
    cbn [put d_room]. destruct Hh as [_ [-> _]]. destruct (Nat.leb_spec (length conf_text) (d_room s)) as [_|Hx]; [eexists; reflexivity|].
    exfalso. revert Hx Hr. unfold conf_line, conf_text. clear. intros. lia. }
  destruct Hc as [s2 ->]. exists s2. reflexivity.
Qed.
End DiskProofs.

(** ** Temporary files *)
Lemma temp_step s : let (s1, r) := dstep _ DTemp s in
  match r with
  | Ok f => (exists n, f = n :: [L "tmp"]) /\ d_node s f = None /\ s1 = put s f (Some (NFile private_file []))
  | Err _ => s1 = s
  end.
Proof.
  cbn [dstep]. destruct (find (fun n => negb (there s (n :: tmp_dir))) (d_names s)) as [n|] eqn:Ef; [|reflexivity]. destruct (is_dir s tmp_dir); [|reflexivity].
  apply find_some in Ef as [_ Ef]. split; [exists n; reflexivity|]. split; [|reflexivity]. unfold there in Ef. destruct (d_node s (n :: tmp_dir)); [discriminate|reflexivity].
Qed.
Lemma written_at s f data : let s1 := put s f (Some (NFile private_file [])) in
  dstep _ (DWrite f data) s1 = (with_room (put s1 f (Some (NFile private_file (firstn (d_room s) data)))) (d_room s - length data),
    if Nat.leb (length data) (d_room s) then Ok tt else Err OtherError).
Proof. intros s1. cbn [dstep]. unfold s1 at 1. rewrite put_same. reflexivity. Qed.
Lemma with_room_node s k q : d_node (with_room s k) q = d_node s q. Proof. reflexivity. Qed.

Lemma drun_caught A (p : prog dop A) s : drun (catch (x <- p ;; Ret (Ok x)) (fun e => Some (Ret (Err e)))) s = (fst (drun p s), Ok (snd (drun p s))).
Proof.
  revert s. induction p as [a|e|X o k IH]; intros s; [reflexivity|reflexivity|]. unfold drun. cbn [bind catch run].
  destruct (dstep X o s) as [s1 x]. apply (IH x s1).
Qed.

Theorem c83_temp : forall A data (body : path -> prog dop A) s s' r, drun (temp_written_file data body) s = (s', r) ->
  (s' = s /\ exists e, r = Err e) \/
  exists f, (exists n, f = n :: [L "tmp"]) /\ d_node s f = None /\
    ((d_room s < length data /\ (exists e, r = Err e) /\ same_but f s s' /\ exists n, d_node s' f = Some n /\ owner_file (firstn (d_room s) data) n) \/
     (length data <= d_room s /\ exists s1 s2 rb, same_but f s s1 /\ (exists n, d_node s1 f = Some n /\ owner_file data n) /\ drun (body f) s1 = (s2, rb) /\
        forall m c, d_node s2 f = Some (NFile m c) -> r = rb /\ d_node s' f = None /\ same_but f s2 s')).
Proof.
  intros A data body s s' r H. unfold temp_written_file in H. rewrite drun_bind, drun_op in H. pose proof (temp_step s) as Ht.
  destruct (dstep _ DTemp s) as [s0 [f|e]]; [|subst s0; injection H as <- <-; left; split; [reflexivity|exists e; reflexivity]].
  destruct Ht as [Hf [Hn ->]]. right. exists f. split; [exact Hf|]. split; [exact Hn|].
  rewrite drun_bind, drun_op, written_at in H. set (s0 := put s f (Some (NFile private_file []))) in *.
  assert (Hsb : forall c k, same_but f s (with_room (put s0 f (Some (NFile private_file c))) k)).
  { intros c k q Hq. rewrite with_room_node, put_other by exact Hq. unfold s0. apply put_other, Hq. }
  destruct (Nat.leb_spec (length data) (d_room s)) as [Hl|Hl].
  - right. split; [exact Hl|]. rewrite firstn_all2 in H by exact Hl. set (s1 := with_room (put s0 f (Some (NFile private_file data))) (d_room s - length data)) in *.
    rewrite drun_bind, drun_caught in H. destruct (drun (body f) s1) as [s2 rb] eqn:Eb. cbn [fst snd] in H. exists s1, s2, rb.
    split; [apply Hsb|]. split; [eexists; split; [unfold s1; rewrite with_room_node; apply put_same|reflexivity]|]. split; [exact Eb|].
    intros m c Hc. rewrite drun_bind, drun_op in H. cbn [dstep] in H. rewrite Hc, drun_lift in H. injection H as <- <-.
    split; [reflexivity|]. split; [rewrite with_room_node; apply put_same|]. intros q Hq. rewrite with_room_node. apply put_other, Hq.
  - left. split; [exact Hl|]. injection H as <- <-. split; [exists OtherError; reflexivity|]. split; [apply Hsb|].
    eexists. split; [rewrite with_room_node; apply put_same|reflexivity].
Qed.

Lemma dcrash_caught A (p : prog dop A) s s' : dcrash (catch (x <- p ;; Ret (Ok x)) (fun e => Some (Ret (Err e)))) s s' -> dcrash p s s'.
Proof.
  revert s. induction p as [a|e|X o k IH]; intros s H; [exact H|exact H|]. cbn [bind catch dcrash] in *.
  destruct H as [H|[H|H]]; [left; exact H|right; left; exact H|]. right; right. apply IH, H.
Qed.
Definition key_body (runs : bytes -> bool) (f : path) : prog dop (option bytes) :=
  c <- try_op (DRead f) ;; if runs c then Ret None else c' <- try_op (DRead f) ;; Ret (Some c').
Lemma key_body_quiet runs f s : (forall s', dcrash (key_body runs f) s s' -> s' = s) /\
  forall m c, d_node s f = Some (NFile m c) -> drun (key_body runs f) s = (s, Ok (if runs c then None else Some c)).
Proof.
  split.
  - intros s' H. unfold key_body in H. apply dcrash_bind in H as [H|[s1 [c [H1 H]]]].
    + apply dcrash_op in H as [H|[Ht| ->]]; [exact H|destruct Ht|reflexivity].
    + rewrite drun_op in H1. cbn [dstep] in H1. injection H1 as <- _. destruct (runs c); [apply dcrash_ret in H; exact H|].
      apply dcrash_bind in H as [H|[s1 [c' [H1 H]]]].
      * apply dcrash_op in H as [H|[Ht| ->]]; [exact H|destruct Ht|reflexivity].
      * rewrite drun_op in H1. cbn [dstep] in H1. injection H1 as <- _. apply dcrash_ret in H. exact H.
  - intros m c Hc. unfold key_body. rewrite drun_bind, drun_op. cbn [dstep]. rewrite Hc. destruct (runs c); [reflexivity|].
    rewrite drun_bind, drun_op. cbn [dstep]. rewrite Hc. reflexivity.
Qed.
Theorem c83_key_file : forall spec runs s s' r, drun (key_in_file spec runs) s = (s', r) -> length spec <= d_room s ->
  same_disk s s' /\ forall x, r = Ok x -> (runs spec = true /\ x = None) \/ (runs spec = false /\ x = Some spec).
Proof.
  intros spec runs s s' r H Hl. unfold key_in_file in H. apply c83_temp in H as [[-> [e ->]]|[f [_ [Hn [[Hx _]|[_ [s1 [s2 [rb [H1 [[n [H2 H3]] [H4 H5]]]]]]]]]]]].
  - split; [intros q; reflexivity|discriminate].
  - lia.
  - unfold owner_file in H3. subst n. pose proof (proj2 (key_body_quiet runs f s1) _ _ H2) as Hb. unfold key_body in Hb. rewrite Hb in H4. injection H4 as <- <-.
    destruct (H5 _ _ H2) as [-> [H6 H7]]. split.
    + intros q. destruct (path_eqb_spec q f) as [->|Hq]; [congruence|]. rewrite H7, H1 by exact Hq. reflexivity.
    + intros x [= <-]. destruct (runs spec); auto.
Qed.
(** what is on disk meanwhile *)
Theorem c83_key_file_any_time : forall spec runs s s', dcrash (key_in_file spec runs) s s' ->
  same_disk s s' \/
  exists f, (exists n, f = n :: [L "tmp"]) /\ d_node s f = None /\ same_but f s s' /\ exists x y n, spec = x ++ y /\ d_node s' f = Some n /\ owner_file x n.
Proof.
  intros spec runs s s' H. unfold key_in_file, temp_written_file in H. pose proof (temp_step s) as Ht.
  apply dcrash_bind in H as [H|[s0 [f [H0 H]]]].
  { apply dcrash_op in H as [->|[Hx| ->]]; [left; intros q; reflexivity|destruct Hx|]. destruct (dstep _ DTemp s) as [s0 [f|e]]; cbn [fst].
    - destruct Ht as [Hf [Hn ->]]. right. exists f. split; [exact Hf|]. split; [exact Hn|]. split; [intros q Hq; apply put_other, Hq|].
      exists [], spec. eexists. split; [reflexivity|]. split; [apply put_same|reflexivity].
    - subst s0. left. intros q. reflexivity. }
  rewrite drun_op in H0. rewrite H0 in Ht. destruct Ht as [Hf [Hn ->]].
  set (s0 := put s f (Some (NFile private_file []))) in *.
  assert (Hsb : forall c k, same_but f s (with_room (put s0 f (Some (NFile private_file c))) k)).
  { intros c k q Hq. rewrite with_room_node, put_other by exact Hq. unfold s0. apply put_other, Hq. }
  assert (Hfile : forall x y k, spec = x ++ y -> let s' := with_room (put s0 f (Some (NFile private_file x))) k in
    exists f, (exists n, f = n :: [L "tmp"]) /\ d_node s f = None /\ same_but f s s' /\ exists x y n, spec = x ++ y /\ d_node s' f = Some n /\ owner_file x n).
  { intros x y k Hxy s1. exists f. split; [exact Hf|]. split; [exact Hn|]. split; [apply Hsb|]. exists x, y. eexists. split; [exact Hxy|].
    split; [unfold s1; rewrite with_room_node; apply put_same|reflexivity]. }
  apply dcrash_bind in H as [H|[s1 [[] [H1 H]]]].
  { right. apply dcrash_op in H as [->|[Hx| ->]].
    - exists f. split; [exact Hf|]. split; [exact Hn|]. split; [intros q Hq; apply put_other, Hq|].
      exists [], spec. eexists. split; [reflexivity|]. split; [apply put_same|reflexivity].
    - destruct Hx as [m [c [x [y [T1 [T2 [_ ->]]]]]]]. unfold s0 in T1. rewrite put_same in T1. injection T1 as <- <-. apply (Hfile x y). exact T2.
    - unfold s0. rewrite written_at. cbn [fst]. apply (Hfile _ (skipn (d_room s) spec)). symmetry. apply firstn_skipn. }
  rewrite drun_op in H1. unfold s0 in H1. rewrite written_at in H1. fold s0 in H1. destruct (Nat.leb_spec (length spec) (d_room s)) as [Hl|]; [|discriminate].
  injection H1 as <-. rewrite firstn_all2 in H by exact Hl. set (s1 := with_room (put s0 f (Some (NFile private_file spec))) (d_room s - length spec)) in *.
  assert (Hn1 : d_node s1 f = Some (NFile private_file spec)) by (unfold s1; rewrite with_room_node; apply put_same).
  assert (He : exists f, (exists n, f = n :: [L "tmp"]) /\ d_node s f = None /\ same_but f s s1 /\ exists x y n, spec = x ++ y /\ d_node s1 f = Some n /\ owner_file x n).
  { apply (Hfile spec []). symmetry. apply app_nil_r. }
  destruct (key_body_quiet runs f s1) as [Hq Hb]. apply dcrash_bind in H as [H|[s2 [r [H2 H]]]].
  { apply dcrash_caught in H. apply Hq in H as ->. right. exact He. }
  rewrite drun_caught in H2. pose proof (Hb _ _ Hn1) as Hb1. unfold key_body in Hb1. rewrite Hb1 in H2.
  injection H2 as <- <-. apply dcrash_bind in H as [H|[s2 [[] [H2 H]]]].
  - apply dcrash_op in H as [->|[Hx| ->]]; [right; exact He|destruct Hx|]. cbn [dstep]. rewrite Hn1. cbn [fst]. left. intros q. rewrite with_room_node.
    destruct (path_eqb_spec q f) as [->|Hqf]; [rewrite put_same; congruence|]. rewrite put_other by exact Hqf. apply (Hsb spec (d_room s - length spec)), Hqf.
  - rewrite drun_op in H2. cbn [dstep] in H2. rewrite Hn1 in H2. injection H2 as <-. apply dcrash_lift in H as ->. left. intros q. rewrite with_room_node.
    destruct (path_eqb_spec q f) as [->|Hqf]; [rewrite put_same; congruence|]. rewrite put_other by exact Hqf. apply (Hsb spec (d_room s - length spec)), Hqf.
Qed.

(** Executable form, for examples: dying after [k] operations. *)
Fixpoint after_dops {A} (k : nat) (p : prog dop A) (s : disk) : disk :=
  match k, p with
  | S k', Vis o f => after_dops k' (f (snd (dstep _ o s))) (fst (dstep _ o s))
  | _, _ => s
  end.
Lemma after_dops_crash A k (p : prog dop A) s : dcrash p s (after_dops k p s).
Proof.
  revert p s. induction k as [|k IH]; intros p s; destruct p as [a|e|X o f]; cbn [after_dops]; try (left; reflexivity). right; right. apply IH.
Qed.
