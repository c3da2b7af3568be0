(** The file-level store refines the abstract logs: for every program, running it on files
    gives the same result as running it on plain lists. *)
From Verif Require Import Base PyStr Env Prog Chain Fs.

Section Refine.
Context {E : Env}.

(** Laws of serializer and hash that the store relies on. *)
Record store_laws : Prop := {
  load_dumps : forall v, load (dumps v) = Some v;
  sha_nonempty : forall b, sha256 b <> []
}.

(** No two different block contents of the history have the same hash. *)
Definition no_collision (s : fstate) : Prop :=
  forall a b, In a (f_written s) -> In b (f_written s) -> sha256 a = sha256 b -> a = b.

(** A block file that was written by the program and is intact. *)
Definition good (blocks : dict bytes) (w : list bytes) (cid : text) (b : bytes) : Prop :=
  dget blocks cid = Some b /\ sha256 b = cid /\ In b w.

(** [chain_rel blocks w cid l]: the intact block files reachable from [cid] spell the
    (non-empty) list [l].  Other files in the directory (left by a crash) do not matter. *)
Inductive chain_rel (blocks : dict bytes) (w : list bytes) : text -> list block -> Prop :=
| cr_root cid e t :
    good blocks w cid (dumps (block_data e None t)) ->
    chain_rel blocks w cid [Block t e]
| cr_next cid p e t l :
    good blocks w cid (dumps (block_data e (Some p) t)) ->
    nonempty p = true ->
    chain_rel blocks w p l ->
    chain_rel blocks w cid (Block t e :: l).

Definition heads_rel (heads : option bytes) (d : dict text) : Prop :=
  match heads with
  | None => d = []
  | Some b => b = dumps (PyDict d)
  end.

Record R (s : fstate) (a : ast) : Prop := {
  r_heads : exists d, heads_rel (f_heads s) d /\ dkeys d = dkeys (a_logs a) /\ NoDup (dkeys d) /\
     (forall n cid, dget d n = Some cid ->
        nonempty cid = true /\ exists l, dget (a_logs a) n = Some l /\ chain_rel (f_blocks s) (f_written s) cid l);
  r_nodup : NoDup (dkeys (f_blocks s));
  r_rings : f_rings s = a_rings a;
  r_tick : f_tick s = a_tick a;
  r_uuid : f_uuid s = a_uuid a;
  r_trace : f_trace s = a_trace a
}.

Lemma R_init : R fs0 ast0.
Proof.
  constructor; try reflexivity; simpl.
  - exists []. repeat split; try constructor; discriminate.
  - constructor.
Qed.

Section Laws.
Hypothesis HL : store_laws.

Lemma getheads_run s d : heads_rel (f_heads s) d -> frun getheads s = (s, Ok d).
Proof.
  unfold getheads, frun; simpl. destruct (f_heads s); simpl; [|intros ->; reflexivity].
  intros ->. rewrite (load_dumps HL). reflexivity.
Qed.

Lemma get_block_run s cid e p t :
  dget (f_blocks s) cid = Some (dumps (block_data e p t)) ->
  frun (get_block cid) s = (s, Ok (Some (FBlock (tag_of e) p t (args_of e)))).
Proof.
  intros H. unfold get_block, frun; simpl. rewrite H, (load_dumps HL).
  destruct p; reflexivity.
Qed.

Lemma block_data_inj e p t e' p' t' : block_data e p t = block_data e' p' t' -> e = e' /\ p = p' /\ t = t'.
Proof.
  unfold block_data. intros H.
  assert (Ht : tag_of e = tag_of e' /\ args_of e = args_of e') by (split; congruence).
  destruct Ht as [Ht Ha]. split.
  - pose proof (entry_of_args e) as H1. rewrite Ht, Ha, entry_of_args in H1. congruence.
  - destruct p, p'; inversion H; subst; auto.
Qed.

Lemma dumps_inj v w : dumps v = dumps w -> v = w.
Proof. intros H. pose proof (load_dumps HL v) as H1. rewrite H, (load_dumps HL) in H1. congruence. Qed.

(** The list a head spells is unique. *)
Lemma chain_rel_fun blocks w cid l1 l2 : chain_rel blocks w cid l1 -> chain_rel blocks w cid l2 -> l1 = l2.
Proof.
  intros H1. revert l2. induction H1 as [cid e t [Hg _]|cid p e t l [Hg _] Hp Hc IH]; intros l2 H2; inversion H2 as [? ? ? [Hg' _]|? ? ? ? ? [Hg' _]]; subst.
  - assert (X : Some (dumps (block_data e None t)) = Some (dumps (block_data e0 None t0))) by congruence.
    injection X as X. apply dumps_inj, block_data_inj in X. destruct X as [-> [_ ->]]. reflexivity.
  - assert (X : Some (dumps (block_data e None t)) = Some (dumps (block_data e0 (Some p) t0))) by congruence.
    injection X as X. apply dumps_inj, block_data_inj in X. destruct X as [_ [X _]]. discriminate.
  - assert (X : Some (dumps (block_data e (Some p) t)) = Some (dumps (block_data e0 None t0))) by congruence.
    injection X as X. apply dumps_inj, block_data_inj in X. destruct X as [_ [X _]]. discriminate.
  - assert (X : Some (dumps (block_data e (Some p) t)) = Some (dumps (block_data e0 (Some p0) t0))) by congruence.
    injection X as X. apply dumps_inj, block_data_inj in X. destruct X as [-> [X ->]].
    injection X as <-. f_equal. auto.
Qed.

(** A chain visits pairwise different block files. *)
Inductive path (blocks : dict bytes) : text -> list text -> Prop :=
| path_root cid e t : dget blocks cid = Some (dumps (block_data e None t)) -> path blocks cid [cid]
| path_next cid p e t l : dget blocks cid = Some (dumps (block_data e (Some p) t)) ->
    path blocks p l -> path blocks cid (cid :: l).

Lemma chain_path blocks w cid l : chain_rel blocks w cid l -> exists ps, path blocks cid ps /\ length ps = length l.
Proof.
  induction 1 as [cid e t [Hg _]|cid p e t l [Hg _] Hp Hc [ps [H1 H2]]].
  - exists [cid]. split; [eapply path_root; eauto | reflexivity].
  - exists (cid :: ps). split; [eapply path_next; eauto | simpl; congruence].
Qed.

Lemma path_fun blocks cid l1 l2 : path blocks cid l1 -> path blocks cid l2 -> l1 = l2.
Proof.
  intros H1. revert l2. induction H1 as [cid e t Hg|cid p e t l Hg Hc IH]; intros l2 H2; inversion H2; subst; auto.
  - assert (X : Some (dumps (block_data e None t)) = Some (dumps (block_data e0 (Some p) t0))) by congruence.
    injection X as X. apply dumps_inj, block_data_inj in X. destruct X as [_ [X _]]. discriminate.
  - assert (X : Some (dumps (block_data e (Some p) t)) = Some (dumps (block_data e0 None t0))) by congruence.
    injection X as X. apply dumps_inj, block_data_inj in X. destruct X as [_ [X _]]. discriminate.
  - assert (X : Some (dumps (block_data e (Some p) t)) = Some (dumps (block_data e0 (Some p0) t0))) by congruence.
    injection X as X. apply dumps_inj, block_data_inj in X. destruct X as [_ [X _]].
    injection X as <-. f_equal. auto.
Qed.

Lemma path_suffix blocks cid l x : path blocks cid l -> In x l ->
  exists l', path blocks x l' /\ length l' <= length l.
Proof.
  induction 1 as [cid e t Hg|cid p e t l Hg Hc IH]; simpl.
  - intros [<-|[]]. exists [cid]. split; [eapply path_root; eauto | simpl; lia].
  - intros [<-|Hin].
    + exists (cid :: l). split; [eapply path_next; eauto | simpl; lia].
    + destruct (IH Hin) as [l' [H1 H2]]. exists l'. split; [exact H1 | lia].
Qed.

Lemma path_NoDup blocks cid l : path blocks cid l -> NoDup l.
Proof.
  induction 1 as [cid e t Hg|cid p e t l Hg Hc IH].
  - constructor; [simpl; tauto | constructor].
  - constructor; [|assumption]. intros Hin.
    destruct (path_suffix _ _ _ _ Hc Hin) as [l' [H1 H2]].
    assert (H3 : path blocks cid (cid :: l)) by (eapply path_next; eauto).
    pose proof (path_fun _ _ _ _ H1 H3) as ->. simpl in H2. lia.
Qed.

Lemma path_incl blocks cid l : path blocks cid l -> incl l (dkeys blocks).
Proof.
  induction 1 as [cid e t Hg|cid p e t l Hg Hc IH]; intros x [<-|Hx]; try contradiction; auto;
    apply dget_Some_key; eauto.
Qed.

Lemma chain_length blocks w cid l : chain_rel blocks w cid l -> length l <= length blocks.
Proof.
  intros H. destruct (chain_path _ _ _ _ H) as [ps [H1 H2]].
  rewrite <- H2. unfold dkeys in *. rewrite <- (map_length fst blocks).
  apply NoDup_incl_length; [eapply path_NoDup; eauto | apply path_incl in H1; exact H1].
Qed.

Lemma walk_run s cid l fuel : chain_rel (f_blocks s) (f_written s) cid l -> length l <= fuel ->
  frun (walk fuel cid) s = (s, Ok l).
Proof.
  intros H. revert fuel. induction H as [cid e t [Hg _]|cid p e t l [Hg _] Hp Hc IH]; intros [|fuel] Hf; simpl in Hf; try lia.
  - cbn [walk]. unfold frun. rewrite run_bind.
    pose proof (get_block_run s cid e None t Hg) as Hgb. unfold frun in Hgb. rewrite Hgb.
    cbn [fb_tag fb_args fb_parent fb_time]. rewrite entry_of_args. reflexivity.
  - cbn [walk]. unfold frun. rewrite run_bind.
    pose proof (get_block_run s cid e (Some p) t Hg) as Hgb. unfold frun in Hgb. rewrite Hgb.
    cbn [fb_tag fb_args fb_parent fb_time]. rewrite entry_of_args, Hp, run_bind.
    unfold frun in IH. rewrite IH by lia. reflexivity.
Qed.

Lemma chain_rel_mono blocks blocks' w w' cid l :
  (forall c b, good blocks w c b -> good blocks' w' c b) ->
  chain_rel blocks w cid l -> chain_rel blocks' w' cid l.
Proof. intros Hm. induction 1; econstructor; eauto. Qed.

Lemma alog_of s d a n cid l :
  (forall n cid, dget d n = Some cid -> nonempty cid = true /\
     exists l, dget (a_logs a) n = Some l /\ chain_rel (f_blocks s) (f_written s) cid l) ->
  dget d n = Some cid -> dget (a_logs a) n = Some l -> chain_rel (f_blocks s) (f_written s) cid l.
Proof. intros H H1 H2. destruct (H n cid H1) as [_ [l' [H3 H4]]]. congruence. Qed.

Lemma alog_none (d : dict text) a n : dkeys d = dkeys (a_logs a) -> dget d n = None -> dget (a_logs a) n = None.
Proof. intros Hk H. apply dget_None. rewrite <- Hk. apply dget_None. exact H. Qed.

(** Reading a chain through the files gives the abstract log. *)
Lemma read_chain_run s a n : R s a -> frun (read_chain n) s = (s, Ok (alog a n)).
Proof.
  intros HR. destruct (r_heads _ _ HR) as [d [Hd [Hk [_ Hc]]]].
  unfold read_chain, frun. rewrite run_bind.
  pose proof (getheads_run s d Hd) as Hg. unfold frun in Hg. rewrite Hg.
  destruct (dget d n) as [cid|] eqn:En.
  - destruct (Hc n cid En) as [Hne [l [Hl Hcr]]]. rewrite Hne.
    cbn [bind perform run fstep]. unfold alog. rewrite Hl.
    apply walk_run; [exact Hcr | apply chain_length in Hcr; lia].
  - unfold alog. rewrite (alog_none d a n Hk En). reflexivity.
Qed.

Lemma head_parent_run s a n d : R s a -> heads_rel (f_heads s) d ->
  exists p, frun (head_parent n) s = (s, Ok p) /\
    match p with
    | Some cid => nonempty cid = true /\ exists l, dget (a_logs a) n = Some l /\ chain_rel (f_blocks s) (f_written s) cid l
    | None => dget (a_logs a) n = None
    end.
Proof.
  intros HR Hd0. destruct (r_heads _ _ HR) as [d' [Hd [Hk [_ Hc]]]].
  unfold head_parent, frun. 
  pose proof (getheads_run s d' Hd) as Hg. unfold frun in Hg.
  destruct (dget d' n) as [cid|] eqn:En.
  - destruct (Hc n cid En) as [Hne [l [Hl Hcr]]].
    exists (Some cid). rewrite run_bind, Hg, En, Hne, run_bind.
    assert (Hb : exists fb, run (@fstep E) (get_block cid) s = (s, Ok (Some fb))).
    { inversion Hcr as [? ? ? [Hg0 _]|? ? ? ? ? [Hg0 _]]; subst; eexists; eapply get_block_run; eauto. }
    destruct Hb as [fb ->]. split; [reflexivity|]. eauto.
  - exists None. rewrite run_bind, Hg, En. split; [reflexivity|]. eapply alog_none; eauto.
Qed.

Lemma dkeys_dset_eq {V W} (d : dict V) (d' : dict W) k v w :
  dkeys d = dkeys d' -> dkeys (dset d k v) = dkeys (dset d' k w).
Proof.
  revert d'; induction d as [|[k1 v1] d IH]; intros [|[k2 v2] d'] H; simpl in *; try discriminate; auto.
  injection H as -> H. destruct (text_eqb k k2); simpl; f_equal; auto.
Qed.

Lemma R_heads_of s a : R s a -> exists d, heads_rel (f_heads s) d.
Proof. intros HR. destruct (r_heads _ _ HR) as [d [H _]]. eauto. Qed.

(** What an append does to the files of a related state. *)
Lemma append_run s a n e : R s a ->
  exists d p ser,
    heads_rel (f_heads s) d /\
    ser = dumps (block_data e p (clock (f_tick s))) /\
    match p with
    | Some cid => nonempty cid = true /\ exists l, dget (a_logs a) n = Some l /\ chain_rel (f_blocks s) (f_written s) cid l
    | None => dget (a_logs a) n = None
    end /\
    frun (append_entry n e) s =
      (FState (Some (dumps (PyDict (dset d n (sha256 ser)))))
              (dset (dset (f_blocks s) (sha256 ser) []) (sha256 ser) ser)
              (f_rings s) (S (f_tick s)) (f_uuid s) (f_trace s) (ser :: f_written s), Ok tt).
Proof.
  intros HR. destruct (R_heads_of s a HR) as [d Hd].
  destruct (head_parent_run s a n d HR Hd) as [p [Hp Hpp]].
  exists d, p, (dumps (block_data e p (clock (f_tick s)))).
  repeat split; auto.
  unfold append_entry, frun. rewrite run_bind. unfold frun in Hp. rewrite Hp.
  unfold store_block. cbn [bind perform run fstep].
  unfold upsert. rewrite run_bind.
  set (s1 := FState _ _ _ _ _ _ _).
  assert (Hd1 : heads_rel (f_heads s1) d) by exact Hd.
  pose proof (getheads_run s1 d Hd1) as Hg. unfold frun in Hg. rewrite Hg. reflexivity.
Qed.

Lemma dset_dset_get {V} (d : dict V) k v0 v k' : dget (dset (dset d k v0) k v) k' = if text_eqb k' k then Some v else dget d k'.
Proof. rewrite !dget_dset. destruct (text_eqb k' k); reflexivity. Qed.

Lemma append_sim s a n e s' r : R s a -> frun (append_entry n e) s = (s', r) -> no_collision s' ->
  r = Ok tt /\ R s' (fst (astep (CAppend n e) a)).
Proof.
  intros HR Hrun HNC.
  destruct (append_run s a n e HR) as [d [p [ser [Hd [Hser [Hp Heq]]]]]].
  rewrite Heq in Hrun. injection Hrun as <- <-. split; [reflexivity|].
  destruct (r_heads _ _ HR) as [d' [Hd' [Hk [Hnd Hc]]]].
  assert (d' = d) as ->.
  { unfold heads_rel in Hd, Hd'. destruct (f_heads s); [|congruence].
    subst b. apply dumps_inj in Hd'. congruence. }
  assert (Hmono : forall c b, good (f_blocks s) (f_written s) c b ->
             good (dset (dset (f_blocks s) (sha256 ser) []) (sha256 ser) ser) (ser :: f_written s) c b).
  { intros c b [Hb [Hs Hw]]. unfold good. rewrite dset_dset_get.
    destruct (text_eqb_spec c (sha256 ser)) as [->|Hne]; [|simpl; auto].
    assert (b = ser) as -> by (apply HNC; simpl; auto). simpl; auto. }
  assert (Hnew : good (dset (dset (f_blocks s) (sha256 ser) []) (sha256 ser) ser) (ser :: f_written s) (sha256 ser) ser).
  { unfold good. rewrite dset_dset_get, text_eqb_refl. simpl; auto. }
  constructor; simpl; try apply HR.
  - exists (dset d n (sha256 ser)). split; [reflexivity|]. split; [apply dkeys_dset_eq; exact Hk|].
    split; [apply dset_NoDup; exact Hnd|].
    intros n' cid'. rewrite !dget_dset. destruct (text_eqb_spec n' n) as [->|Hne].
    + intros [= <-]. split; [apply nonempty_true, (sha_nonempty HL)|].
      eexists; split; [reflexivity|].
      rewrite <- (r_tick _ _ HR). unfold alog. destruct p as [cid|].
      * destruct Hp as [Hne [l [Hl Hcr]]]. rewrite Hl.
        eapply cr_next; [rewrite <- Hser; exact Hnew | exact Hne |].
        eapply chain_rel_mono; [exact Hmono | exact Hcr].
      * rewrite Hp. eapply cr_root. rewrite <- Hser; exact Hnew.
    + intros Hcid. destruct (Hc n' cid' Hcid) as [Hnec [l [Hl Hcr]]].
      split; [exact Hnec|]. exists l. split; [exact Hl|]. eapply chain_rel_mono; eauto.
  - apply dset_NoDup, dset_NoDup, (r_nodup _ _ HR).
  - f_equal. apply (r_tick _ _ HR).
Qed.

Lemma remove_if_run s d f : heads_rel (f_heads s) d ->
  frun (remove_if f) s = (set_heads s (Some (dumps (PyDict (dremove_if f d)))), Ok tt).
Proof.
  intros Hd. unfold remove_if, frun. rewrite run_bind.
  pose proof (getheads_run s d Hd) as Hg. unfold frun in Hg. rewrite Hg. reflexivity.
Qed.

Lemma remove_sim s a f : R s a ->
  exists s', frun (remove_if f) s = (s', Ok tt) /\ R s' (fst (astep (CRemoveIf f) a)).
Proof.
  intros HR. destruct (r_heads _ _ HR) as [d [Hd [Hk [Hnd Hc]]]].
  eexists. split; [apply remove_if_run; exact Hd|].
  constructor; simpl; try apply HR.
  exists (dremove_if f d). split; [reflexivity|].
  split; [rewrite !dkeys_dremove_if, Hk; reflexivity|].
  split; [apply dremove_if_NoDup; exact Hnd|].
  intros n cid. rewrite !dget_dremove_if. destruct (f n); [discriminate|]. apply Hc.
Qed.

(** Every chain operation is simulated. *)
Lemma impl_sim X (o : cop X) s a s' r : R s a -> frun (impl o) s = (s', r) -> no_collision s' ->
  r = Ok (snd (astep o a)) /\ R s' (fst (astep o a)).
Proof.
  intros HR Hrun HNC. destruct o; cbn [impl] in Hrun.
  - injection Hrun as <- <-. rewrite (r_tick _ _ HR). split; [reflexivity|].
    constructor; simpl; try apply HR; f_equal; apply HR.
  - injection Hrun as <- <-. rewrite (r_uuid _ _ HR). split; [reflexivity|].
    constructor; simpl; try apply HR; f_equal; apply HR.
  - rewrite (read_chain_run s a n HR) in Hrun. injection Hrun as <- <-. split; [reflexivity | exact HR].
  - apply (append_sim s a n e s' r HR Hrun HNC).
  - destruct (r_heads _ _ HR) as [d [Hd [Hk _]]].
    unfold frun in Hrun. rewrite run_bind in Hrun.
    pose proof (getheads_run s d Hd) as Hg. unfold frun in Hg. rewrite Hg in Hrun.
    injection Hrun as <- <-. rewrite Hk. split; [reflexivity | exact HR].
  - destruct (remove_sim s a f HR) as [s1 [H1 H2]]. rewrite H1 in Hrun. injection Hrun as <- <-. auto.
  - injection Hrun as <- <-. split; [reflexivity|].
    constructor; simpl; try apply HR.
    + exists []. repeat split; try constructor; discriminate.
    + constructor.
    + rewrite (r_rings _ _ HR). reflexivity.
  - cbn in Hrun. rewrite (r_rings _ _ HR) in Hrun. simpl.
    destruct (gpg (ring_at (a_rings a) (argv_home argv)) argv inp tmp) as [r' res].
    injection Hrun as <- <-. split; [reflexivity|].
    constructor; simpl; try apply HR; f_equal; apply HR.
Qed.

(** The ghost list of written blocks only grows. *)
Lemma fstep_written X (o : fop X) s : incl (f_written s) (f_written (fst (fstep o s))).
Proof.
  destruct o; simpl; try apply incl_refl; try (apply incl_tl, incl_refl).
  destruct (gpg _ _ _ _); apply incl_refl.
Qed.

Lemma frun_written A (p : prog fop A) s : incl (f_written s) (f_written (fst (frun p s))).
Proof.
  revert s. induction p as [x|e|X o k IH]; intros s; simpl; try apply incl_refl.
  unfold frun in *. simpl. pose proof (fstep_written X o s) as H.
  destruct (fstep o s) as [s1 x]. simpl in H. eapply incl_tran; [exact H | apply IH].
Qed.

Lemma no_collision_incl s s' : incl (f_written s) (f_written s') -> no_collision s' -> no_collision s.
Proof. intros Hi H a b Ha Hb. apply H; auto. Qed.

(** Simulation for all programs. *)
Lemma refine_prog A (p : prog cop A) s a s' r :
  R s a -> frun (on_files p) s = (s', r) -> no_collision s' ->
  r = snd (arun p a) /\ R s' (fst (arun p a)).
Proof.
  revert s a. induction p as [x|e|X o k IH]; intros s a HR Hrun HNC.
  - injection Hrun as <- <-. auto.
  - injection Hrun as <- <-. auto.
  - unfold on_files, frun in Hrun. cbn [expand] in Hrun. rewrite run_bind in Hrun.
    destruct (run (@fstep E) (impl o) s) as [s1 r1] eqn:E1.
    assert (HNC1 : no_collision s1).
    { eapply no_collision_incl; [|exact HNC].
      destruct r1 as [x|e]; [|injection Hrun as <- _; apply incl_refl].
      pose proof (frun_written _ (expand (@impl E) (k x)) s1) as Hw.
      unfold frun in Hw. rewrite Hrun in Hw. exact Hw. }
    destruct (impl_sim X o s a s1 r1 HR E1 HNC1) as [-> HR1].
    unfold arun. cbn [run]. destruct (astep o a) as [a1 x1]. simpl in *.
    apply (IH x1 s1 a1 HR1 Hrun HNC).
Qed.

End Laws.
End Refine.
