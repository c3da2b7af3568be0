(** A process that dies: after any prefix of its file operations, possibly in the middle of
    one of them. *)
From Verif Require Import Base PyStr Env Prog Chain Gpg Mime States Recommendation Account Cmdline Bot Fs Api Refine StoreFacts.

(** The heads file during one run: not opened since the start, opened (truncated) but not
    completely rewritten, completely rewritten. *)
Inductive hphase := HUntouched | HOpen | HRewritten.

Definition phase1 {X} (o : fop X) (ph : hphase) : hphase :=
  match o with FOpenHeads => HOpen | FWriteHeads _ => HRewritten | _ => ph end.

Section Crash.
Context {E : Env}.

(** Dying in the middle of an operation: a prefix of the content has reached the file; of a
    directory tree being removed anything may be left. *)
Definition torn {X} (o : fop X) (ph : hphase) (s : fstate) (ph' : hphase) (s' : fstate) : Prop :=
  match o with
  | FWriteBlock cid b =>
      ph' = ph /\ exists c rest, b = c ++ rest /\
      s' = FState (f_heads s) (dset (f_blocks s) cid c) (f_rings s) (f_tick s) (f_uuid s) (f_trace s) (f_written s)
  | FWriteHeads b => ph' = HOpen /\ exists c rest, b = c ++ rest /\ s' = set_heads s (Some c)
  | FRmTree => ph' = HOpen
  | _ => False
  end.

Fixpoint crash {A} (ph : hphase) (p : prog fop A) (s : fstate) (ph' : hphase) (s' : fstate) : Prop :=
  (ph' = ph /\ s' = s) \/
  match p with
  | Vis o k => torn o ph s ph' s' \/ crash (phase1 o ph) (k (snd (fstep o s))) (fst (fstep o s)) ph' s'
  | _ => False
  end.

(** The states a program of chain operations passes through, on plain logs. *)
Fixpoint passes {A} (p : prog cop A) (a a' : ast) : Prop :=
  a' = a \/
  match p with
  | Vis o k => passes (k (snd (astep o a))) (fst (astep o a)) a'
  | _ => False
  end.

(** one more reading of the clock *)
Definition ticked (a : ast) : ast := fst (astep CTime a).

(** Executable form, for examples: dying after [k] operations. *)
Fixpoint after_ops {A} (k : nat) (ph : hphase) (p : prog fop A) (s : fstate) : hphase * fstate :=
  match k, p with
  | S k', Vis o f => after_ops k' (phase1 o ph) (f (snd (fstep o s))) (fst (fstep o s))
  | _, _ => (ph, s)
  end.
Lemma after_ops_crash A k ph (p : prog fop A) s :
  crash ph p s (fst (after_ops k ph p s)) (snd (after_ops k ph p s)).
Proof.
  revert ph p s. induction k as [|k IH]; intros ph p s; destruct p as [a|e|X o f]; cbn [after_ops];
    try (left; split; reflexivity).
  right; right. apply IH.
Qed.

Lemma after_ops_crash_at A k ph (p : prog fop A) s ph' :
  fst (after_ops k ph p s) = ph' -> crash ph p s ph' (snd (after_ops k ph p s)).
Proof. intros <-. apply after_ops_crash. Qed.

Fixpoint phases {A} (ph : hphase) (p : prog fop A) (s : fstate) : hphase :=
  match p with
  | Vis o k => phases (phase1 o ph) (k (snd (fstep o s))) (fst (fstep o s))
  | _ => ph
  end.

Lemma crash_bind A B (p : prog fop A) (f : A -> prog fop B) ph s ph' s' :
  crash ph (bind p f) s ph' s' ->
  crash ph p s ph' s' \/
  exists x, snd (frun p s) = Ok x /\ crash (phases ph p s) (f x) (fst (frun p s)) ph' s'.
Proof.
  revert ph s. induction p as [a|e|X o k IH]; intros ph s H.
  - right. exists a. split; [reflexivity|exact H].
  - left. exact H.
  - cbn [bind crash] in H. destruct H as [H|[H|H]].
    + left. left. exact H.
    + left. right. left. exact H.
    + apply IH in H. unfold frun in *. cbn [run phases crash].
      destruct (fstep o s) as [s1 x1]; cbn [fst snd] in *.
      destruct H as [H|H]; [left; right; right; exact H|right; exact H].
Qed.

Lemma phases_bind A B (p : prog fop A) (f : A -> prog fop B) ph s :
  phases ph (bind p f) s =
  match snd (frun p s) with Ok x => phases (phases ph p s) (f x) (fst (frun p s)) | Err _ => phases ph p s end.
Proof.
  revert ph s. induction p as [a|e|X o k IH]; intros ph s; try reflexivity.
  cbn [bind phases]. rewrite IH. unfold frun. cbn [run]. destruct (fstep o s); reflexivity.
Qed.

Lemma crash_ro A (p : prog fop A) ph s ph' s' : allowed readonly p -> crash ph p s ph' s' -> ph' = ph /\ s' = s.
Proof.
  intros H. revert ph s. induction H as [a|e|X o k HP Hk IH]; intros ph s Hc.
  - destruct Hc as [Hc|[]]; exact Hc.
  - destruct Hc as [Hc|[]]; exact Hc.
  - cbn [crash] in Hc. destruct Hc as [Hc|[Hc|Hc]]; [exact Hc| |];
      destruct o; simpl in HP; try contradiction; apply IH in Hc; exact Hc.
Qed.
Lemma phases_ro A (p : prog fop A) ph s : allowed readonly p -> phases ph p s = ph.
Proof.
  intros H. revert ph s. induction H as [a|e|X o k HP Hk IH]; intros ph s; try reflexivity.
  cbn [phases]. rewrite IH. destruct o; simpl in HP; try contradiction; reflexivity.
Qed.

(** ** Blocks carry the clock reading at which they were written *)
Definition dated (s : fstate) : Prop :=
  forall b, In b (f_written s) -> exists e p i, b = dumps (block_data e p (clock i)) /\ i < f_tick s.

Lemma dated_grow s s' : dated s -> incl (f_written s') (f_written s) -> f_tick s <= f_tick s' -> dated s'.
Proof.
  intros H Hw Ht b Hb. destruct (H b (Hw b Hb)) as [e [p [i [H1 H2]]]]. exists e, p, i. split; [exact H1|lia].
Qed.

Lemma append_tick n e s :
  let s' := fst (frun (append_entry n e) s) in
  dated s -> dated s'.
Proof.
  cbv zeta. intros Hd. unfold append_entry, frun. rewrite run_bind.
  pose proof (readonly_run _ _ s (ro_head_parent n)) as H. unfold frun in H.
  destruct (run (@fstep E) (head_parent n) s) as [s1 [p|x]]; simpl in H; subst s1; [|exact Hd].
  unfold store_block. cbn [bind perform run fstep]. unfold upsert. rewrite run_bind.
  match goal with |- context [run _ getheads ?x] => set (s1 := x) end.
  assert (Hd1 : dated s1).
  { intros b [<-|Hb].
    - exists e, p, (f_tick s). split; [reflexivity|simpl; lia].
    - destruct (Hd b Hb) as [e' [p' [i [H1 H2]]]]. exists e', p', i. split; [exact H1|simpl; lia]. }
  pose proof (readonly_run _ _ s1 ro_getheads) as H. unfold frun in H.
  destruct (run (@fstep E) getheads s1) as [s2 [d|x]]; simpl in H; subst s2; [|exact Hd1].
  cbn [bind perform run fstep fst]. eapply dated_grow; [exact Hd1|apply incl_refl|simpl; lia].
Qed.

Lemma impl_dated X (o : cop X) s : dated s -> dated (fst (frun (impl o) s)).
Proof.
  intros Hd. destruct o; cbn [impl].
  - eapply dated_grow; [exact Hd|apply incl_refl|simpl; lia].
  - eapply dated_grow; [exact Hd|apply incl_refl|simpl; lia].
  - rewrite (readonly_run _ _ s (ro_read_chain n)). exact Hd.
  - apply append_tick, Hd.
  - unfold frun. rewrite run_bind. pose proof (readonly_run _ _ s ro_getheads) as H. unfold frun in H.
    destruct (run (@fstep E) getheads s) as [s1 [d|x]]; simpl in H; subst s1; exact Hd.
  - unfold remove_if, frun. rewrite run_bind. pose proof (readonly_run _ _ s ro_getheads) as H. unfold frun in H.
    destruct (run (@fstep E) getheads s) as [s1 [d|x]]; simpl in H; subst s1; exact Hd.
  - eapply dated_grow; [exact Hd|apply incl_refl|simpl; lia].
  - unfold frun; simpl. destruct (gpg _ _ _ _); exact Hd.
Qed.
Lemma prog_dated A (p : prog cop A) s : dated s -> dated (fst (frun (on_files p) s)).
Proof.
  revert s; induction p as [a|e|X o k IH]; intros s Hd; try exact Hd.
  unfold on_files, frun in *. cbn [expand]. rewrite run_bind.
  pose proof (impl_dated X o s Hd) as H. unfold frun in H.
  destruct (run (@fstep E) (impl o) s) as [s1 [x|x]]; cbn [fst] in *; [apply IH, H|exact H].
Qed.
Lemma session_dated h s : dated s -> dated (fst (fsession h s)).
Proof.
  revert s; induction h as [|c h IH]; intros s Hd; [exact Hd|]. cbn [fsession].
  pose proof (prog_dated _ (exec c) s Hd) as H.
  destruct (frun (on_files (exec c)) s) as [s1 r]; cbn [fst] in *. specialize (IH s1 H).
  destruct (fsession h s1); exact IH.
Qed.
Lemma dated_init : dated fs0. Proof. intros b []. Qed.

(** ** Recovery *)
Definition clock_injective : Prop := forall i j, clock i = clock j -> i = j.

Section Laws.
Hypothesis HL : store_laws.
Hypothesis HI : clock_injective.

(** Changing a file that is not one of the good blocks does not matter. *)
Lemma R_junk s a c ser e p i : R s a -> dated s -> f_tick s <= i ->
  ser = dumps (block_data e p (clock i)) ->
  no_collision (FState (f_heads s) (f_blocks s) (f_rings s) (f_tick s) (f_uuid s) (f_trace s) (ser :: f_written s)) ->
  forall blocks', blocks' = dset (f_blocks s) (sha256 ser) c \/
                  blocks' = dset (dset (f_blocks s) (sha256 ser) []) (sha256 ser) c ->
  R (FState (f_heads s) blocks' (f_rings s) (S (f_tick s)) (f_uuid s) (f_trace s) (ser :: f_written s)) (ticked a).
Proof.
  intros HR Hd Hi Hser HNC blocks' Hb'.
  assert (Hmono : forall cid b, good (f_blocks s) (f_written s) cid b -> good blocks' (ser :: f_written s) cid b).
  { intros cid b [Hb [Hs Hw]]. unfold good.
    assert (Hne : cid <> sha256 ser).
    { intros ->. assert (b = ser) as -> by (apply HNC; simpl; auto).
      destruct (Hd _ Hw) as [e' [p' [j [Hj Hlt]]]]. rewrite Hser in Hj.
      apply (dumps_inj HL), block_data_inj in Hj. destruct Hj as [_ [_ Hj]]. apply HI in Hj. lia. }
    destruct Hb' as [->| ->]; rewrite !dget_dset; destruct (text_eqb_spec cid (sha256 ser)); try contradiction; simpl; auto. }
  destruct (r_heads _ _ HR) as [d [Hh [Hk [Hnd Hc]]]].
  constructor; simpl; try apply HR.
  - exists d. repeat split; auto; intros; destruct (Hc _ _ H) as [H1 [l [H2 H3]]]; auto.
    exists l. split; [exact H2|]. eapply chain_rel_mono; eauto.
  - destruct Hb' as [->| ->]; repeat apply dset_NoDup; apply (r_nodup _ _ HR).
  - f_equal. apply (r_tick _ _ HR).
Qed.

Lemma append_crash n e s a ph ph' s' : R s a -> dated s -> ph <> HOpen ->
  crash ph (append_entry n e) s ph' s' -> no_collision s' -> ph' <> HOpen ->
  (ph' = ph /\ (R s' a \/ R s' (ticked a))) \/ (ph' = HRewritten /\ R s' (fst (astep (CAppend n e) a)) /\ s' = fst (frun (append_entry n e) s)).
Proof.
  intros HR Hd Hph Hc HNC Hph'.
  pose proof (append_sim HL s a n e) as Hsim.
  destruct (frun (append_entry n e) s) as [sf rf] eqn:Ef. specialize (Hsim sf rf HR eq_refl). cbn [fst].
  unfold append_entry in Hc, Ef.
  apply crash_bind in Hc. destruct Hc as [Hc|[p [Hp Hc]]].
  { apply crash_ro in Hc; [|apply ro_head_parent]. destruct Hc as [-> ->]. left. auto. }
  rewrite (phases_ro _ _ _ _ (ro_head_parent n)), (readonly_run _ _ s (ro_head_parent n)) in Hc.
  unfold frun in Ef. rewrite run_bind in Ef.
  pose proof (readonly_run _ _ s (ro_head_parent n)) as H. unfold frun in H, Hp.
  destruct (run (@fstep E) (head_parent n) s) as [s1 r1]; simpl in H, Hp; subst s1 r1.
  unfold store_block in Hc, Ef. cbn [bind perform crash torn phase1 fstep fst snd f_heads f_blocks f_rings f_tick f_uuid f_trace f_written] in Hc.
  cbn [bind perform run fstep f_heads f_blocks f_rings f_tick f_uuid f_trace f_written] in Ef.
  set (ser := dumps (block_data e p (clock (f_tick s)))) in *.
  assert (HJ : forall s'', In ser (f_written s'') -> incl (f_written s) (f_written s'') -> no_collision s'' ->
     no_collision (FState (f_heads s) (f_blocks s) (f_rings s) (f_tick s) (f_uuid s) (f_trace s) (ser :: f_written s))).
  { intros s'' H1 H2 H3 x y Hx Hy. apply H3; simpl in Hx, Hy.
    - destruct Hx as [<-|Hx]; auto.
    - destruct Hy as [<-|Hy]; auto. }
  assert (Htk : forall s'', s'' = FState (f_heads s) (f_blocks s) (f_rings s) (S (f_tick s)) (f_uuid s) (f_trace s) (f_written s) ->
     R s'' (ticked a)).
  { intros s'' ->. constructor; simpl; try apply HR; f_equal; apply HR. }
  destruct Hc as [[-> ->]|[[]|Hc]]; [left; auto|].
  destruct Hc as [[-> ->]|[[]|Hc]]; [left; split; [reflexivity|right; apply Htk; reflexivity]|].
  destruct Hc as [[-> ->]|[[-> [c [rest [Hb ->]]]]|Hc]].
  { left. split; [reflexivity|right]. apply (R_junk s a [] ser e p (f_tick s)); [exact HR|exact Hd|lia|reflexivity| |left; reflexivity].
    eapply HJ; [| |exact HNC]; [left; reflexivity|apply incl_tl, incl_refl]. }
  { left. split; [reflexivity|right]. apply (R_junk s a c ser e p (f_tick s)); [exact HR|exact Hd|lia|reflexivity| |right; reflexivity].
    eapply HJ; [| |exact HNC]; [left; reflexivity|apply incl_tl, incl_refl]. }
  unfold upsert in Hc, Ef. apply crash_bind in Hc. destruct Hc as [Hc|[d [Hdd Hc]]].
  { apply crash_ro in Hc; [|apply ro_getheads]. destruct Hc as [-> ->].
    left. split; [reflexivity|right]. apply (R_junk s a ser ser e p (f_tick s)); [exact HR|exact Hd|lia|reflexivity| |right; reflexivity].
    eapply HJ; [| |exact HNC]; [left; reflexivity|apply incl_tl, incl_refl]. }
  rewrite (phases_ro _ _ _ _ ro_getheads), (readonly_run _ _ _ ro_getheads) in Hc.
  rewrite run_bind in Ef.
  match type of Ef with context [run _ getheads ?x] => set (s1 := x) in * end.
  pose proof (readonly_run _ _ s1 ro_getheads) as H. unfold frun in H, Hdd.
  destruct (run (@fstep E) getheads s1) as [s2 r2]; simpl in H, Hdd; subst s2 r2.
  cbn [bind perform crash torn phase1 fstep fst snd f_heads f_blocks f_rings f_tick f_uuid f_trace f_written] in Hc. cbn [bind perform run fstep f_heads f_blocks f_rings f_tick f_uuid f_trace f_written] in Ef.
  destruct Hc as [[-> ->]|[[]|Hc]].
  { left. split; [reflexivity|right]. subst s1. apply (R_junk s a ser ser e p (f_tick s)); [exact HR|exact Hd|lia|reflexivity| |right; reflexivity].
    eapply HJ; [| |exact HNC]; [left; reflexivity|apply incl_tl, incl_refl]. }
  destruct Hc as [[-> ->]|[[-> _]|Hc]]; [congruence|congruence|].
  destruct Hc as [[-> ->]|[]]. injection Ef as <- <-.
  right. split; [reflexivity|]. split; [|reflexivity]. apply Hsim. exact HNC.
Qed.

Lemma remove_crash f s a ph ph' s' : R s a -> ph <> HOpen ->
  crash ph (remove_if f) s ph' s' -> ph' <> HOpen ->
  (ph' = ph /\ R s' a) \/ R s' (fst (astep (CRemoveIf f) a)).
Proof.
  intros HR Hph Hc Hph'.
  destruct (remove_sim HL s a f HR) as [sf [Ef HRf]].
  unfold remove_if in Hc, Ef. apply crash_bind in Hc. destruct Hc as [Hc|[d [Hdd Hc]]].
  { apply crash_ro in Hc; [|apply ro_getheads]. destruct Hc as [-> ->]. auto. }
  rewrite (phases_ro _ _ _ _ ro_getheads), (readonly_run _ _ _ ro_getheads) in Hc.
  unfold frun in Ef. rewrite run_bind in Ef.
  pose proof (readonly_run _ _ s ro_getheads) as H. unfold frun in H, Hdd.
  destruct (run (@fstep E) getheads s) as [s2 r2]; simpl in H, Hdd; subst s2 r2.
  cbn [bind perform crash torn phase1 fstep fst snd f_heads f_blocks f_rings f_tick f_uuid f_trace f_written] in Hc. cbn [bind perform run fstep f_heads f_blocks f_rings f_tick f_uuid f_trace f_written] in Ef.
  destruct Hc as [[-> ->]|[[]|Hc]]; [auto|].
  destruct Hc as [[-> ->]|[[-> _]|Hc]]; [congruence|congruence|].
  destruct Hc as [[-> ->]|[]]. injection Ef as <-. auto.
Qed.

(** The phase after a completed operation. *)
Lemma impl_phases X (o : cop X) ph s : ph <> HOpen -> phases ph (impl o) s <> HOpen.
Proof.
  intros Hph. destruct o; cbn [impl]; try exact Hph.
  - rewrite (phases_ro _ _ _ _ (ro_read_chain n)). exact Hph.
  - unfold append_entry. rewrite phases_bind, (phases_ro _ _ _ _ (ro_head_parent n)).
    destruct (snd (frun (head_parent n) s)); [|exact Hph].
    unfold store_block. cbn [bind perform phases phase1 fstep fst snd]. unfold upsert.
    rewrite phases_bind, (phases_ro _ _ _ _ ro_getheads).
    match goal with |- match ?x with _ => _ end <> _ => destruct x end; [|exact Hph]. cbn. discriminate.
  - rewrite phases_bind, (phases_ro _ _ _ _ ro_getheads).
    match goal with |- match ?x with _ => _ end <> _ => destruct x end; exact Hph.
  - unfold remove_if. rewrite phases_bind, (phases_ro _ _ _ _ ro_getheads).
    match goal with |- match ?x with _ => _ end <> _ => destruct x end; [|exact Hph]. cbn. discriminate.
Qed.

Lemma impl_crash X (o : cop X) s a ph ph' s' : R s a -> dated s -> ph <> HOpen ->
  crash ph (impl o) s ph' s' -> no_collision s' -> ph' <> HOpen ->
  R s' a \/ R s' (ticked a) \/ R s' (fst (astep o a)).
Proof.
  intros HR Hd Hph Hc HNC Hph'. destruct o; cbn [impl] in Hc.
  - cbn [crash perform torn phase1 fstep fst snd] in Hc. destruct Hc as [[-> ->]|[[]|[[-> ->]|[]]]]; auto.
    right; right. constructor; simpl; try apply HR; f_equal; apply HR.
  - cbn [crash perform torn phase1 fstep fst snd] in Hc. destruct Hc as [[-> ->]|[[]|[[-> ->]|[]]]]; auto.
    right; right. constructor; simpl; try apply HR; f_equal; apply HR.
  - apply crash_ro in Hc; [|apply ro_read_chain]. destruct Hc as [-> ->]. auto.
  - destruct (append_crash n e s a ph ph' s' HR Hd Hph Hc HNC Hph') as [[_ [H|H]]|[_ [H _]]]; auto.
  - apply crash_bind in Hc. destruct Hc as [Hc|[d [_ Hc]]].
    + apply crash_ro in Hc; [|apply ro_getheads]. destruct Hc as [-> ->]. auto.
    + destruct Hc as [[-> ->]|[]]. rewrite (readonly_run _ _ _ ro_getheads). auto.
  - destruct (remove_crash f s a ph ph' s' HR Hph Hc Hph') as [[_ H]|H]; auto.
  - cbn [crash perform torn phase1 fstep fst snd] in Hc. destruct Hc as [[-> ->]|[->|[[-> ->]|[]]]]; auto.
    + congruence.
    + right; right. apply (impl_sim HL _ CRmTree s a _ _ HR eq_refl).
      intros x y Hx Hy. apply HNC; exact Hx || exact Hy.
  - assert (Hf : frun (impl (CGpg argv inp tmp)) s =
               (fst (fstep (FGpg argv inp tmp) s), Ok (snd (fstep (FGpg argv inp tmp) s)))).
    { unfold frun; cbn [impl perform run]. destruct (fstep (FGpg argv inp tmp) s); reflexivity. }
    cbn [crash perform phase1] in Hc. destruct Hc as [[-> ->]|[[]|[[-> ->]|[]]]]; auto.
    right; right. eapply (impl_sim HL _ (CGpg argv inp tmp) s a _ _ HR Hf HNC).
Qed.

Lemma passes_refl A (p : prog cop A) a : passes p a a.
Proof. destruct p; simpl; auto. Qed.

Lemma crash_written A (p : prog fop A) ph s ph' s' : crash ph p s ph' s' -> ph' <> HOpen ->
  incl (f_written s) (f_written s').
Proof.
  revert ph s. induction p as [a|e|X o k IH]; intros ph s Hc Hph.
  - destruct Hc as [[_ ->]|[]]; apply incl_refl.
  - destruct Hc as [[_ ->]|[]]; apply incl_refl.
  - cbn [crash] in Hc. destruct Hc as [[_ ->]|[Hc|Hc]]; [apply incl_refl| |].
    + destruct o; simpl in Hc; try contradiction; try (destruct Hc; congruence).
      destruct Hc as [_ [c [rest [_ ->]]]]. apply incl_refl.
    + eapply incl_tran; [apply (fstep_written _ o s)|]. eapply IH; eauto.
Qed.

Theorem crash_recovery A (p : prog cop A) s a ph ph' s' : R s a -> dated s -> ph <> HOpen ->
  crash ph (on_files p) s ph' s' -> no_collision s' -> ph' <> HOpen ->
  exists a', passes p a a' /\ (R s' a' \/ R s' (ticked a')).
Proof.
  revert s a ph. induction p as [x|e|X o k IH]; intros s a ph HR Hd Hph Hc HNC Hph'.
  - destruct Hc as [[_ ->]|[]]. exists a. split; [apply passes_refl|auto].
  - destruct Hc as [[_ ->]|[]]. exists a. split; [apply passes_refl|auto].
  - unfold on_files in Hc. cbn [expand] in Hc. apply crash_bind in Hc. destruct Hc as [Hc|[x [Hx Hc]]].
    + destruct (impl_crash X o s a ph ph' s' HR Hd Hph Hc HNC Hph') as [H|[H|H]].
      * exists a. split; [apply passes_refl|auto].
      * exists a. split; [apply passes_refl|auto].
      * exists (fst (astep o a)). split; [right; apply passes_refl|auto].
    + assert (HNC1 : no_collision (fst (frun (impl o) s))).
      { eapply no_collision_incl; [|exact HNC]. eapply crash_written; eauto. }
      destruct (frun (impl o) s) as [s1 r1] eqn:E1. cbn [fst snd] in *. subst r1.
      destruct (impl_sim HL X o s a s1 (Ok x) HR E1 HNC1) as [[= ->] HR1].
      assert (Hd1 : dated s1).
      { pose proof (impl_dated X o s Hd) as H. rewrite E1 in H. exact H. }
      destruct (IH (snd (astep o a)) s1 (fst (astep o a)) _ HR1 Hd1 (impl_phases X o ph s Hph) Hc HNC Hph') as [a' [Hp HR']].
      exists a'. split; [right; exact Hp|exact HR'].
Qed.

End Laws.
End Crash.
