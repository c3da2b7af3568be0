(** Proofs of C85. *)
From Verif Require Import Base PyStr Env Prog Chain Gpg Mime States Recommendation Account Cmdline Bot Fs Api Refine Spec StoreFacts Crash Conc StoreProofs WatchSpec.

Section Watch.
Context {E : Env}.
Hypothesis HL : store_laws.
Hypothesis HE : load [] = None.

(** ** No block is written twice *)
(** The time that a process has got and not used yet. *)
Definition next_token {X} (o : fop X) : nat -> option nat -> option nat :=
  match o with FTime => fun i _ => Some i | FOpenBlock _ _ => fun _ _ => None | _ => fun _ t => t end.
Definition token_ok {X} (o : fop X) (t : option nat) : Prop :=
  match o with FOpenBlock _ b => exists e p i, t = Some i /\ b = dumps (block_data e p (clock i)) | _ => True end.
Definition token_result {X} (o : fop X) (i : nat) : X -> Prop :=
  match o in fop X return X -> Prop with FTime => fun x => x = clock i | _ => fun _ => True end.
Fixpoint tsafe {A} (p : prog fop A) (t : option nat) : Prop :=
  match p with
  | Vis o k => token_ok o t /\ forall i x, token_result o i x -> tsafe (k x) (next_token o i t)
  | _ => True
  end.
Lemma tsafe_bind {A B} (p : prog fop A) (f : A -> prog fop B) t :
  tsafe p t -> (forall x t', tsafe (f x) t') -> tsafe (bind p f) t.
Proof.
  revert t. induction p as [a|e|X o k IH]; intros t H Hf; cbn [bind tsafe]; auto.
  destruct H as [H1 H2]. split; auto.
Qed.
Definition no_open (X : Type) (o : fop X) : Prop := match o with FOpenBlock _ _ => False | _ => True end.
Lemma tsafe_no_open {A} (p : prog fop A) t : allowed no_open p -> tsafe p t.
Proof.
  intros H. revert t. induction H as [a|e|X o k Ho Hk IH]; intros t; cbn [tsafe]; auto.
  split; auto. destruct o; try exact I. contradiction.
Qed.
Lemma ro_no_open {A} (p : prog fop A) : allowed readonly p -> allowed no_open p.
Proof. apply allowed_weaken. intros X o. destruct o; simpl; auto. Qed.
Lemma tsafe_append n e t : tsafe (append_entry n e) t.
Proof.
  unfold append_entry. apply tsafe_bind; [apply tsafe_no_open, ro_no_open, ro_head_parent|]. intros p t'.
  unfold store_block. cbn [bind perform tsafe token_ok token_result next_token]. split; [exact I|]. intros i x ->.
  split; [eauto|]. intros _ _ _. split; [exact I|]. intros _ _ _.
  apply tsafe_no_open. unfold upsert. apply allowed_bind; [apply ro_no_open, ro_getheads|].
  intros d. repeat (constructor; try exact I; intros).
Qed.
Lemma tsafe_on_files {A} (p : prog cop A) t : tsafe (on_files p) t.
Proof.
  unfold on_files. revert t. induction p as [a|e|X o k IH]; intros t; cbn [expand]; try exact I.
  apply tsafe_bind; [|intros x t'; apply IH].
  destruct o; cbn [impl]; try (apply tsafe_no_open; apply allowed_perform; exact I).
  - apply tsafe_no_open, ro_no_open, ro_read_chain.
  - apply tsafe_append.
  - apply tsafe_no_open, ro_no_open. apply allowed_bind; [apply ro_getheads|]. constructor.
  - apply tsafe_no_open. unfold remove_if. apply allowed_bind; [apply ro_no_open, ro_getheads|].
    intros d. repeat (constructor; try exact I; intros).
Qed.

Definition held (t : option nat) : list nat := match t with Some i => [i] | None => [] end.
Record tokens {A} (ps : list (prog fop A)) (s : fstate) (ts : list (option nat)) : Prop := {
  tk_safe : Forall2 tsafe ps ts;
  tk_old : forall i, In i (flat_map held ts) -> (i < f_tick s)%nat;
  tk_apart : NoDup (flat_map held ts);
  tk_written : forall b, In b (f_written s) -> exists e p i, b = dumps (block_data e p (clock i)) /\ (i < f_tick s)%nat /\ ~ In i (flat_map held ts);
  tk_once : NoDup (f_written s)
}.
Lemma tokens_step {A} (ps : list (prog fop A)) s ts ps' s' : clock_injective -> istep ps s ps' s' -> tokens ps s ts -> exists ts', tokens ps' s' ts'.
Proof.
  intros HC [ps1 X o k ps2 s0] [H1 H2 H3 H4 H5].
  apply Forall2_app_inv_l in H1. destruct H1 as [ts1 [tt [Ha [Hb ->]]]].
  inversion Hb as [|? t ? ts2 Ht Hr]; subst. destruct Ht as [Hok Hk]. rewrite flat_map_app in *. cbn [flat_map] in *.
  destruct o.
  - (* FTime *)
    exists (ts1 ++ Some (f_tick s0) :: ts2). cbn [fstep fst snd] in *.
    assert (Hinc : forall i, In i (flat_map held ts1 ++ flat_map held ts2) -> (i < f_tick s0)%nat).
    { intros i Hi. apply H2. apply in_app_iff in Hi. rewrite !in_app_iff. tauto. }
    assert (Hnd : NoDup (flat_map held ts1 ++ flat_map held ts2)).
    { destruct t as [j|]; cbn [held app] in H3; [apply NoDup_remove_1 in H3; exact H3|exact H3]. }
    constructor; cbn [f_tick f_written].
    + apply Forall2_app; [exact Ha|constructor; [|exact Hr]]. apply (Hk (f_tick s0) (clock (f_tick s0)) eq_refl).
    + rewrite flat_map_app. cbn [flat_map held app]. intros i Hi. apply in_app_iff in Hi. cbn [In] in Hi.
      destruct Hi as [Hi|[<-|Hi]]; try lia; specialize (Hinc i); rewrite in_app_iff in Hinc; intuition lia.
    + rewrite flat_map_app. cbn [flat_map held app]. apply (NoDup_Add (a := f_tick s0) (l := flat_map held ts1 ++ flat_map held ts2)); [apply Add_app|].
      split; [exact Hnd|]. intros Hi. apply Hinc in Hi. lia.
    + intros b Hb0. destruct (H4 b Hb0) as [e [p [i [E1 [E2 E3]]]]]. exists e, p, i. split; [exact E1|]. split; [lia|].
      rewrite flat_map_app. cbn [flat_map held app]. rewrite !in_app_iff in *. cbn [In]. intros [Hi|[Hi|Hi]]; try lia; tauto.
    + exact H5.
  - exists (ts1 ++ t :: ts2). cbn [fstep fst snd] in *. constructor; rewrite ?flat_map_app; auto.
    apply Forall2_app; [exact Ha|constructor; [|exact Hr]]. exact (Hk 0%nat _ I).
  - exists (ts1 ++ t :: ts2). cbn [fstep fst snd] in *. destruct (gpg _ _ _ _) as [r' res]. cbn [fst snd] in *. constructor; rewrite ?flat_map_app; auto.
    apply Forall2_app; [exact Ha|constructor; [|exact Hr]]. exact (Hk 0%nat _ I).
  - exists (ts1 ++ t :: ts2). cbn [fstep fst snd] in *. constructor; rewrite ?flat_map_app; auto.
    apply Forall2_app; [exact Ha|constructor; [|exact Hr]]. exact (Hk 0%nat _ I).
  - exists (ts1 ++ t :: ts2). cbn [fstep fst snd] in *. constructor; rewrite ?flat_map_app; auto.
    apply Forall2_app; [exact Ha|constructor; [|exact Hr]]. exact (Hk 0%nat _ I).
  - exists (ts1 ++ t :: ts2). cbn [fstep fst snd] in *. constructor; rewrite ?flat_map_app; auto.
    apply Forall2_app; [exact Ha|constructor; [|exact Hr]]. exact (Hk 0%nat _ I).
  - exists (ts1 ++ t :: ts2). cbn [fstep fst snd] in *. constructor; rewrite ?flat_map_app; auto.
    apply Forall2_app; [exact Ha|constructor; [|exact Hr]]. exact (Hk 0%nat _ I).
  - (* FOpenBlock *)
    destruct Hok as [e [p [i [-> ->]]]]. cbn [held app] in *.
    exists (ts1 ++ None :: ts2). cbn [fstep fst snd] in *.
    assert (Hni : ~ In i (flat_map held ts1 ++ flat_map held ts2)) by (apply NoDup_remove_2 in H3; exact H3).
    apply NoDup_remove_1 in H3.
    constructor; cbn [f_tick f_written]; rewrite ?flat_map_app; cbn [flat_map held app].
    + apply Forall2_app; [exact Ha|constructor; [|exact Hr]]. exact (Hk 0%nat _ I).
    + intros j Hj. apply H2. rewrite in_app_iff in *. cbn [In]. tauto.
    + exact H3.
    + intros b [<-|Hb0].
      * exists e, p, i. split; [reflexivity|]. split; [|exact Hni]. apply H2. rewrite in_app_iff. cbn [In]. auto.
      * destruct (H4 b Hb0) as [e' [p' [j [E1 [E2 E3]]]]]. exists e', p', j. split; [exact E1|]. split; [exact E2|].
        rewrite in_app_iff in *. cbn [In] in E3. tauto.
    + constructor; [|exact H5]. intros Hin. destruct (H4 _ Hin) as [e' [p' [j [E1 [E2 E3]]]]].
      apply (dumps_inj HL) in E1. apply block_data_inj in E1. destruct E1 as [_ [_ Ec]]. apply HC in Ec. subst j.
      apply E3. rewrite in_app_iff. cbn [In]. auto.
  - exists (ts1 ++ t :: ts2). cbn [fstep fst snd] in *. constructor; rewrite ?flat_map_app; auto.
    apply Forall2_app; [exact Ha|constructor; [|exact Hr]]. exact (Hk 0%nat _ I).
  - exists (ts1 ++ t :: ts2). cbn [fstep fst snd] in *. constructor; rewrite ?flat_map_app; auto.
    apply Forall2_app; [exact Ha|constructor; [|exact Hr]]. exact (Hk 0%nat _ I).
  - exists (ts1 ++ t :: ts2). cbn [fstep fst snd] in *. constructor; rewrite ?flat_map_app; auto.
    apply Forall2_app; [exact Ha|constructor; [|exact Hr]]. exact (Hk 0%nat _ I).
Qed.
Lemma tokens_interleave {A} (ps : list (prog fop A)) s ps' s' : clock_injective -> interleave ps s ps' s' ->
  forall ts, tokens ps s ts -> exists ts', tokens ps' s' ts'.
Proof.
  intros HC. induction 1 as [|ps s ps1 s1 ps2 s2 H1 H2 IH]; intros ts Ht; [eauto|].
  destruct (tokens_step _ _ _ _ _ HC H1 Ht) as [ts1 Ht1]. eapply IH; eauto.
Qed.
(** a run alone is an interleaving of one process *)
Lemma run_interleave {A} (p : prog fop A) s : interleave [p] s [ended (snd (frun p s))] (fst (frun p s)).
Proof.
  revert s. induction p as [a|e|X o k IH]; intros s; try apply il_refl.
  unfold frun in *. cbn [run]. specialize (IH (snd (fstep o s)) (fst (fstep o s))).
  eapply il_step; [apply (is_step [] X o k [] s)|]. cbn [app]. destruct (fstep o s) as [s1 x]. exact IH.
Qed.
(** the tokens of processes that have not begun *)
Definition clean (s : fstate) : Prop :=
  NoDup (f_written s) /\ forall b, In b (f_written s) -> exists e p i, b = dumps (block_data e p (clock i)) /\ (i < f_tick s)%nat.
Lemma clean_tokens {A} (qs : list (prog cop A)) s : clean s -> tokens (map on_files qs) s (map (fun _ => None) qs).
Proof.
  intros [H1 H2]. assert (Hf : forall l : list (prog cop A), flat_map held (map (fun _ => None) l) = []).
  { induction l; auto. }
  constructor; rewrite ?Hf; auto.
  - induction qs; constructor; [apply tsafe_on_files|assumption].
  - intros i [].
  - constructor.
  - intros b Hb. destruct (H2 b Hb) as [e [p [i [X1 X2]]]]. exists e, p, i. auto.
Qed.
Lemma tokens_clean {A} (ps : list (prog fop A)) s ts : tokens ps s ts -> clean s.
Proof. intros [_ _ _ H4 H5]. split; [exact H5|]. intros b Hb. destruct (H4 b Hb) as [e [p [i [X1 [X2 _]]]]]. eauto 6. Qed.
Lemma clean_run {A} (p : prog cop A) s : clock_injective -> clean s -> clean (fst (frun (on_files p) s)).
Proof.
  intros HC Hc. destruct (tokens_interleave _ _ _ _ HC (run_interleave (on_files p) s) _ (clean_tokens [p] s Hc)) as [ts Ht].
  eapply tokens_clean; exact Ht.
Qed.
Lemma clean_session h s : clock_injective -> clean s -> clean (fst (fsession h s)).
Proof.
  intros HC. revert s. induction h as [|c h IH]; intros s Hs; [exact Hs|]. cbn [fsession].
  pose proof (clean_run (exec c) s HC Hs) as H1. destruct (frun (on_files (exec c)) s) as [s1 r]. cbn [fst] in H1.
  specialize (IH s1 H1). destruct (fsession h s1); exact IH.
Qed.
Lemma clean_after h : clock_injective -> clean (files_after h).
Proof. intros HC. apply clean_session; [exact HC|]. split; [constructor|intros b []]. Qed.
Lemma written_once {A} (qs : list (prog cop A)) h ps' s' : clock_injective ->
  interleave (map on_files qs) (files_after h) ps' s' -> NoDup (f_written s').
Proof.
  intros HC Hi. destruct (tokens_interleave _ _ _ _ HC Hi _ (clean_tokens qs _ (clean_after h HC))) as [ts Ht]. apply Ht.
Qed.

(** ** What is stored stays *)
Definition ext (s s' : fstate) : Prop :=
  incl (f_written s) (f_written s') /\ forall c b, good (f_blocks s) (f_written s) c b -> good (f_blocks s') (f_written s') c b.
Lemma ext_refl s : ext s s. Proof. split; [apply incl_refl|auto]. Qed.
Lemma ext_trans a b c : ext a b -> ext b c -> ext a c.
Proof. intros [H1 H2] [H3 H4]. split; [eapply incl_tran; eauto|auto]. Qed.
Definition stored (s : fstate) (cid : text) : Prop := nonempty cid = true /\ exists l, chain_rel (f_blocks s) (f_written s) cid l.
Lemma stored_ext s s' cid : ext s s' -> stored s cid -> stored s' cid.
Proof. intros [_ H] [H1 [l H2]]. split; [exact H1|]. exists l. eapply chain_rel_mono; eauto. Qed.
Definition heads_stored (s : fstate) (d : dict text) : Prop := forall n cid, dget d n = Some cid -> stored s cid.
Definition sound (s : fstate) : Prop :=
  (f_heads s = None \/ f_heads s = Some [] \/ exists d, f_heads s = Some (dumps (PyDict d)) /\ heads_stored s d) /\
  (forall cid b, dget (f_blocks s) cid = Some b -> exists b', In b' (f_written s) /\ sha256 b' = cid).
Definition fine (s : fstate) : Prop := no_collision s /\ NoDup (f_written s).
Definition may {X} (s : fstate) (o : fop X) : Prop :=
  match o with
  | FWriteHeads b => exists d, b = dumps (PyDict d) /\ heads_stored s d
  | FOpenBlock cid b => sha256 b = cid
  | FWriteBlock cid b => In b (f_written s) /\ sha256 b = cid
  | FRmTree => False
  | _ => True
  end.
Lemma may_ext {X} s s' (o : fop X) : ext s s' -> may s o -> may s' o.
Proof.
  intros He. destruct o; simpl; auto.
  - intros [d [H1 H2]]. exists d. split; [exact H1|]. intros n cid Hn. eapply stored_ext; eauto.
  - intros [H1 H2]. split; [apply He, H1|exact H2].
Qed.
Lemma sound_step X (o : fop X) s : sound s -> may s o -> fine (fst (fstep o s)) -> sound (fst (fstep o s)) /\ ext s (fst (fstep o s)).
Proof.
  intros [Hh Hb] Hm [HN HD].
  assert (Hsame : forall s', f_blocks s' = f_blocks s -> f_written s' = f_written s -> ext s s').
  { intros s' E1 E2. unfold ext. rewrite E1, E2. split; [apply incl_refl|auto]. }
  assert (Hkeep : forall s', ext s s' -> f_heads s' = f_heads s ->
            f_heads s' = None \/ f_heads s' = Some [] \/ exists d, f_heads s' = Some (dumps (PyDict d)) /\ heads_stored s' d).
  { intros s' He Eh. rewrite Eh. destruct Hh as [H|[H|[d [H1 H2]]]]; [left; exact H|right; left; exact H|right; right].
    exists d. split; [exact H1|]. intros n cid Hn. eapply stored_ext; eauto. }
  destruct o; cbn [fstep fst may] in *.
  - assert (He : ext s (FState (f_heads s) (f_blocks s) (f_rings s) (S (f_tick s)) (f_uuid s) (f_trace s) (f_written s))) by (apply Hsame; reflexivity).
    split; [split; [apply Hkeep; auto|exact Hb]|exact He].
  - assert (He : ext s (FState (f_heads s) (f_blocks s) (f_rings s) (f_tick s) (S (f_uuid s)) (f_trace s) (f_written s))) by (apply Hsame; reflexivity).
    split; [split; [apply Hkeep; auto|exact Hb]|exact He].
  - destruct (gpg _ _ _ _) as [r' res]. cbn [fst] in *.
    match goal with |- sound ?x /\ _ => assert (He : ext s x) by (apply Hsame; reflexivity) end.
    split; [split; [apply Hkeep; auto|exact Hb]|exact He].
  - split; [split; assumption|apply ext_refl].
  - assert (He : ext s (set_heads s (Some []))) by (apply Hsame; reflexivity).
    split; [split; [right; left; reflexivity|exact Hb]|exact He].
  - assert (He : ext s (set_heads s (Some b))) by (apply Hsame; reflexivity).
    split; [split; [|exact Hb]|exact He]. right; right. destruct Hm as [d [-> Hd]]. exists d. split; [reflexivity|].
    intros n cid Hn. eapply stored_ext; [exact He|apply (Hd n cid Hn)].
  - split; [split; assumption|apply ext_refl].
  - match goal with |- sound ?x /\ _ => assert (He : ext s x) end.
    { split; [intros x Hx; right; exact Hx|]. cbn [f_blocks f_written]. intros c b' [G1 [G2 G3]]. split; [|split; [exact G2|right; exact G3]].
      rewrite dget_dset. destruct (text_eqb_spec c cid) as [->|]; [|exact G1]. exfalso.
      cbn [f_written] in HD. inversion HD as [|? ? Hni _]; subst. apply Hni.
      replace b with b'; [exact G3|]. apply HN; cbn [f_written]; [right; exact G3|left; reflexivity|exact G2]. }
    split; [split; [apply Hkeep; auto|]|exact He]. cbn [f_blocks f_written]. intros c b'. rewrite dget_dset.
    destruct (text_eqb_spec c cid) as [->|].
    + intros _. exists b. split; [left; reflexivity|exact Hm].
    + intros Hc. destruct (Hb c b' Hc) as [b2 [X1 X2]]. exists b2. split; [right; exact X1|exact X2].
  - match goal with |- sound ?x /\ _ => assert (He : ext s x) end.
    { split; [apply incl_refl|]. cbn [f_blocks f_written]. intros c b' [G1 [G2 G3]]. split; [|auto].
      rewrite dget_dset. destruct (text_eqb_spec c cid) as [->|]; [|exact G1]. f_equal.
      destruct Hm as [M1 M2]. apply HN; cbn [f_written]; auto. congruence. }
    split; [split; [apply Hkeep; auto|]|exact He]. cbn [f_blocks f_written]. intros c b'. rewrite dget_dset.
    destruct (text_eqb_spec c cid) as [->|]; [|apply Hb]. intros _. exists b. exact Hm.
  - split; [split; assumption|apply ext_refl].
  - contradiction.
Qed.

(** programs that keep it so, whatever others do that also keep it so *)
Fixpoint keeps {A} (Q : fstate -> A -> Prop) (p : prog fop A) (s : fstate) : Prop :=
  match p with
  | Ret a => Q s a
  | Raise _ => True
  | Vis o k => may s o /\ forall s1, ext s s1 -> sound s1 -> fine (fst (fstep o s1)) ->
                 keeps Q (k (snd (fstep o s1))) (fst (fstep o s1))
  end.
Definition lasting {A} (Q : fstate -> A -> Prop) : Prop := forall s s' a, ext s s' -> Q s a -> Q s' a.
Lemma keeps_ext {A} (Q : fstate -> A -> Prop) p s s' : lasting Q -> ext s s' -> keeps Q p s -> keeps Q p s'.
Proof.
  intros HQ He. destruct p as [a|e|X o k]; cbn [keeps]; [apply HQ, He|auto|].
  intros [H1 H2]. split; [eapply may_ext; eauto|]. intros s1 Hs. apply H2. eapply ext_trans; eauto.
Qed.
Lemma fine_before X (o : fop X) s : fine (fst (fstep o s)) -> fine s.
Proof.
  intros [H1 H2]. split.
  - eapply no_collision_incl; [|exact H1]. apply fstep_written.
  - destruct o; cbn [fstep fst f_written set_heads] in *; auto; [destruct (gpg _ _ _ _); exact H2|inversion H2; assumption].
Qed.
Lemma keeps_bind {A B} (Q : fstate -> A -> Prop) (Q2 : fstate -> B -> Prop) p (f : A -> prog fop B) s :
  keeps Q p s -> (forall s' a, ext s s' -> Q s' a -> keeps Q2 (f a) s') -> keeps Q2 (bind p f) s.
Proof.
  revert s. induction p as [a|e|X o k IH]; intros s H Hf; cbn [bind keeps] in *; auto.
  - apply Hf; [apply ext_refl|exact H].
  - destruct H as [H1 H2]. split; [exact H1|]. intros s1 He Hs Hfi. apply IH; [apply H2; auto|].
    intros s' a He' Hq. apply Hf; [|exact Hq]. eapply ext_trans; [exact He|]. eapply ext_trans; [|exact He'].
    apply sound_step; auto. eapply may_ext; eauto.
Qed.

Lemma k_getheads s : keeps heads_stored getheads s.
Proof.
  unfold getheads. cbn [bind perform keeps may fstep fst snd]. split; [exact I|]. intros s1 He [Hh _] _.
  destruct Hh as [->|[->|[d [-> Hd]]]].
  - intros n cid H. discriminate H.
  - rewrite HE. exact I.
  - rewrite (load_dumps HL). exact Hd.
Qed.
Definition parent_stored (s : fstate) (p : option text) : Prop := match p with Some c => stored s c | None => True end.
Lemma k_readonly {A} (p : prog fop A) s : allowed readonly p -> keeps (fun _ _ => True) p s.
Proof.
  intros H. revert s. induction H as [a|e|X o k Ho Hk IH]; intros s; cbn [keeps]; auto.
  split; [destruct o; simpl in *; auto; contradiction|]. intros. apply IH.
Qed.
Lemma k_head_parent n s : keeps parent_stored (head_parent n) s.
Proof.
  unfold head_parent. eapply keeps_bind; [apply k_getheads|]. intros s1 d He Hd.
  destruct (dget d n) as [cid|] eqn:En; [|exact I]. destruct (nonempty cid); [|exact I].
  eapply keeps_bind; [apply k_readonly, ro_get_block|]. intros s2 b He2 _.
  destruct b; [|exact I]. cbn [keeps parent_stored]. eapply stored_ext; [exact He2|apply (Hd n cid En)].
Qed.
Lemma k_append n e s : keeps (fun _ _ => True) (append_entry n e) s.
Proof.
  unfold append_entry. eapply keeps_bind; [apply k_head_parent|]. intros s1 p He Hp.
  unfold store_block. cbn [bind perform keeps may fstep fst snd]. split; [exact I|].
  intros s2 He2 Hs2 _. cbn [fst snd] in *.
  match goal with |- sha256 ?b = _ /\ _ => set (ser := b) end. split; [reflexivity|].
  intros s3 He3 Hs3 Hf3. cbn [fst snd] in *. split; [split; [left; reflexivity|reflexivity]|].
  intros s4 He4 Hs4 Hf4. cbn [fst snd] in *.
  assert (Hin4 : In ser (f_written s4)) by (apply He4; left; reflexivity).
  assert (Hs : stored (FState (f_heads s4) (dset (f_blocks s4) (sha256 ser) ser) (f_rings s4) (f_tick s4) (f_uuid s4) (f_trace s4) (f_written s4)) (sha256 ser)).
  { assert (Hg : good (dset (f_blocks s4) (sha256 ser) ser) (f_written s4) (sha256 ser) ser).
    { split; [rewrite dget_dset, text_eqb_refl; reflexivity|auto]. }
    split; [destruct (sha256 ser) eqn:Es; [exfalso; eapply (sha_nonempty HL); exact Es|reflexivity]|].
    destruct p as [c|].
    - assert (Hx : ext s1 (FState (f_heads s4) (dset (f_blocks s4) (sha256 ser) ser) (f_rings s4) (f_tick s4) (f_uuid s4) (f_trace s4) (f_written s4))).
      { eapply ext_trans; [exact He2|]. eapply ext_trans; [|eapply ext_trans; [exact He3|]].
        - split; [apply incl_refl|auto].
        - eapply ext_trans; [apply (sound_step _ (FOpenBlock (sha256 ser) ser) s3 Hs3 eq_refl Hf3)|].
          eapply ext_trans; [exact He4|]. apply (sound_step _ (FWriteBlock (sha256 ser) ser) s4 Hs4 (conj Hin4 eq_refl) Hf4). }
      destruct (stored_ext _ _ _ Hx Hp) as [Hc [l Hl]]. eexists. eapply cr_next; [exact Hg|exact Hc|exact Hl].
    - eexists. eapply cr_root. exact Hg. }
  unfold upsert. eapply keeps_bind; [apply k_getheads|]. intros s5 d He5 Hd.
  cbn [bind perform keeps may fstep fst snd]. split; [exact I|]. intros s6 He6 Hs6 _. cbn [fst snd] in *.
  split; [|auto]. eexists. split; [reflexivity|]. intros m cid. rewrite dget_dset.
  assert (H6 : ext s5 (set_heads s6 (Some []))) by (destruct He6; split; assumption).
  destruct (text_eqb_spec m n) as [->|].
  - intros [= <-]. eapply stored_ext; [|exact Hs]. eapply ext_trans; [exact He5|exact H6].
  - intros Hg. eapply stored_ext; [exact H6|apply (Hd m cid Hg)].
Qed.

Lemma k_remove f s : keeps (fun _ _ => True) (remove_if f) s.
Proof.
  unfold remove_if. eapply keeps_bind; [apply k_getheads|]. intros s5 d He5 Hd.
  cbn [bind perform keeps may fstep fst snd]. split; [exact I|]. intros s6 He6 Hs6 _. cbn [fst snd] in *.
  split; [|auto]. eexists. split; [reflexivity|]. intros m cid. rewrite dget_dremove_if.
  assert (H6 : ext s5 (set_heads s6 (Some []))) by (destruct He6; split; assumption).
  destruct (f m); [discriminate|]. intros Hg. eapply stored_ext; [exact H6|apply (Hd m cid Hg)].
Qed.
Lemma k_on_files {A} (p : prog cop A) s : allowed no_rmtree p -> keeps (fun _ _ => True) (on_files p) s.
Proof.
  intros H. revert s. induction H as [a|e|X o k Ho Hk IH]; intros s; unfold on_files in *; cbn [expand]; try exact I.
  eapply (keeps_bind (fun _ _ => True)); [|intros; apply IH].
  destruct o; cbn [impl]; try contradiction;
    try (cbn [perform keeps may]; split; [exact I|intros; exact I]).
  - apply k_readonly, ro_read_chain.
  - apply k_append.
  - eapply keeps_bind; [apply k_getheads|]. intros; exact I.
  - apply k_remove.
Qed.

(** ** The pool of writers *)
Definition all_keep {A} (ps : list (prog fop A)) (s : fstate) : Prop := Forall (fun p => keeps (fun _ _ => True) p s) ps.
Lemma all_keep_ext {A} (ps : list (prog fop A)) s s' : ext s s' -> all_keep ps s -> all_keep ps s'.
Proof. intros He. apply Forall_impl. intros p. apply keeps_ext; [intros ? ? ? _ _; exact I|exact He]. Qed.
Lemma pool_step {A} (ps : list (prog fop A)) s ps' s' : istep ps s ps' s' -> fine s' -> sound s -> all_keep ps s ->
  sound s' /\ ext s s' /\ all_keep ps' s'.
Proof.
  intros [ps1 X o k ps2 s0] Hf Hs Hp. unfold all_keep in Hp. apply Forall_app in Hp. destruct Hp as [H1 H2].
  inversion H2 as [|? ? H3 H4]; subst. destruct H3 as [Hm Hk].
  destruct (sound_step _ o s0 Hs Hm Hf) as [Hs' He]. split; [exact Hs'|]. split; [exact He|].
  apply Forall_app. split; [eapply all_keep_ext; eauto|]. constructor; [apply Hk; auto; apply ext_refl|eapply all_keep_ext; eauto].
Qed.

(** ** The reader *)
Fixpoint steady {A} (R : result A -> Prop) (p : prog fop A) (s : fstate) : Prop :=
  match p with
  | Ret a => R (Ok a)
  | Raise e => R (Err e)
  | Vis o k => readonly _ o /\ forall s1, ext s s1 -> sound s1 -> steady R (k (snd (fstep o s1))) s1
  end.
Lemma steady_ext {A} (R : result A -> Prop) p s s' : ext s s' -> steady R p s -> steady R p s'.
Proof.
  intros He. destruct p as [a|e|X o k]; cbn [steady]; auto. intros [H1 H2]. split; [exact H1|].
  intros s1 Hs. apply H2. eapply ext_trans; eauto.
Qed.
Lemma steady_bind {A B} (R : result A -> Prop) (R2 : result B -> Prop) p (f : A -> prog fop B) s :
  steady R p s -> (forall s' a, ext s s' -> R (Ok a) -> steady R2 (f a) s') -> (forall e, R (Err e) -> R2 (Err e)) ->
  steady R2 (bind p f) s.
Proof.
  revert s. induction p as [a|e|X o k IH]; intros s H Hf He; cbn [bind steady] in *; auto.
  - apply Hf; [apply ext_refl|exact H].
  - destruct H as [H1 H2]. split; [exact H1|]. intros s1 Hx Hs. apply IH; auto.
    intros s' a Hx'. apply Hf. eapply ext_trans; eauto.
Qed.
Lemma steady_run {A} (R : result A -> Prop) (p : prog fop A) s : steady R p s -> sound s -> R (snd (frun p s)).
Proof.
  revert s. induction p as [a|e|X o k IH]; intros s H Hs; [exact H|exact H|].
  destruct H as [H1 H2]. unfold frun in *. cbn [run].
  assert (Hsame : fst (fstep o s) = s) by (destruct o; simpl in H1; try contradiction; reflexivity).
  specialize (H2 s (ext_refl s) Hs). destruct (fstep o s) as [s1 x]. cbn [fst snd] in *. subst s1. apply IH; auto.
Qed.
Lemma steady_get_block s cid e p t : good (f_blocks s) (f_written s) cid (dumps (block_data e p t)) ->
  steady (fun r => r = Ok (Some (FBlock (tag_of e) p t (args_of e)))) (get_block cid) s.
Proof.
  intros Hg. unfold get_block. cbn [bind perform steady]. split; [exact I|]. intros s1 He _. cbn [fstep snd].
  destruct He as [_ He]. destruct (He _ _ Hg) as [-> _]. rewrite (load_dumps HL). destruct p; reflexivity.
Qed.
Lemma steady_walk s cid l fuel : chain_rel (f_blocks s) (f_written s) cid l -> (length l <= fuel)%nat ->
  steady (fun r => r = Ok l) (walk fuel cid) s.
Proof.
  intros H. revert fuel. induction H as [cid e t Hg|cid p e t l Hg Hp Hc IH]; intros [|fuel] Hf; simpl in Hf; try lia; cbn [walk].
  - eapply steady_bind; [apply steady_get_block; exact Hg| |discriminate].
    intros s' a He [= ->]. cbn [fb_tag fb_args fb_parent fb_time]. rewrite entry_of_args. cbn [bind steady]. reflexivity.
  - eapply steady_bind; [apply steady_get_block; exact Hg| |discriminate].
    intros s' a He [= ->]. cbn [fb_tag fb_args fb_parent fb_time]. rewrite entry_of_args, Hp.
    eapply steady_bind; [eapply steady_ext; [exact He|apply IH; lia]| |discriminate].
    intros s2 a _ [= ->]. reflexivity.
Qed.

(** after the first operation everything is decided *)
Lemma steady_read n s : sound s ->
  match read_chain n with
  | Vis o k => readonly _ o /\ exists R, steady (fun r => r = R) (k (snd (fstep o s))) s
  | _ => False
  end.
Proof.
  intros [Hh Hb]. unfold read_chain, getheads. cbn [bind perform fstep snd]. split; [exact I|].
  destruct Hh as [->|[->|[d [-> Hd]]]].
  - eexists. cbn [bind dget steady]. reflexivity.
  - rewrite HE. eexists. cbn [bind steady]. reflexivity.
  - rewrite (load_dumps HL). cbn [bind]. destruct (dget d n) as [cid|] eqn:En; [|eexists; cbn [steady]; reflexivity].
    destruct (Hd n cid En) as [Hn [l Hl]]. rewrite Hn. exists (Ok l). cbn [perform bind steady]. split; [exact I|].
    intros s1 He _. cbn [fstep snd]. apply steady_walk.
    + destruct He as [_ He]. eapply chain_rel_mono; eauto.
    + assert (Hc : chain_rel (f_blocks s1) (f_written s1) cid l) by (destruct He as [_ He]; eapply chain_rel_mono; eauto).
      apply (chain_length HL) in Hc. lia.
Qed.
Lemma steady_heads s : sound s ->
  match impl CHeads with
  | Vis o k => readonly _ o /\ exists R, steady (fun r => r = R) (k (snd (fstep o s))) s
  | _ => False
  end.
Proof.
  intros [Hh Hb]. cbn [impl]. unfold getheads. cbn [bind perform fstep snd]. split; [exact I|].
  destruct Hh as [->|[->|[d [-> Hd]]]]; rewrite ?HE, ?(load_dumps HL); eexists; cbn [bind steady]; reflexivity.
Qed.
Lemma steady_impl X (o : cop X) s : reads_only X o -> sound s ->
  match impl o with
  | Vis o' k => readonly _ o' /\ steady (fun r => r = snd (frun (impl o) s)) (k (snd (fstep o' s))) s
  | _ => False
  end.
Proof.
  intros Ho Hs.
  assert (H : match impl o with Vis o' k => readonly _ o' /\ exists R, steady (fun r => r = R) (k (snd (fstep o' s))) s | _ => False end).
  { destruct o; try contradiction; [apply steady_read|apply steady_heads]; exact Hs. }
  destruct (impl o) as [a|e|Y o' k]; auto. destruct H as [Hr [R HR]]. split; [exact Hr|].
  assert (Hsame : fst (fstep o' s) = s) by (destruct o'; simpl in Hr; try contradiction; reflexivity).
  assert (Heq : snd (frun (Vis o' k) s) = R).
  { unfold frun. cbn [run]. destruct (fstep o' s) as [s1 x] eqn:Ef. cbn [fst snd] in *. subst s1. apply (steady_run (fun r => r = R)); auto. }
  rewrite Heq. exact HR.
Qed.

Section Reader.
Context {A : Type}.
Variable G : result A -> Prop.   (* the answers to be proved right *)

(** the reader is between two operations on logs, or inside one whose result is decided *)
Inductive at_work (ps : list (prog fop A)) (s : fstate) : prog fop A -> Prop :=
| aw_between p : allowed reads_only p -> (forall r, sees ps s p r -> G r) -> at_work ps s (on_files p)
| aw_inside X (q : prog fop X) k R : steady (fun r => r = R) q s -> (forall x, allowed reads_only (k x)) ->
    (forall r, match R with Ok x => sees ps s (k x) r | Err e => r = Err e end -> G r) ->
    at_work ps s (bind q (fun x => on_files (k x))).

Lemma at_work_others ps s ps' s' p : istep ps s ps' s' -> ext s s' -> at_work ps s p -> at_work ps' s' p.
Proof.
  intros Hi He [q Hq HG|X q k R Hst Hk HG].
  - apply aw_between; auto. intros r Hr. apply HG. eapply se_others; [eapply il_step; [exact Hi|apply il_refl]|exact Hr].
  - eapply aw_inside; [eapply steady_ext; eauto|exact Hk|]. intros r Hr. apply HG. destruct R as [x|e]; [|exact Hr].
    eapply se_others; [eapply il_step; [exact Hi|apply il_refl]|exact Hr].
Qed.
Definition stepped (p : prog fop A) (s : fstate) : option (fstate * prog fop A) :=
  match p with Vis o k => Some (fst (fstep o s), k (snd (fstep o s))) | _ => None end.
Lemma readonly_same X (o : fop X) s : readonly X o -> fst (fstep o s) = s.
Proof. destruct o; simpl; intros H; try contradiction; reflexivity. Qed.
Lemma own_between ps s p : allowed reads_only p -> (forall r, sees ps s p r -> G r) -> sound s ->
  forall s1 rp, stepped (on_files p) s = Some (s1, rp) -> s1 = s /\ at_work ps s rp.
Proof.
  intros Hp HG Hs s1 rp Hst. destruct Hp as [a|e|Z oz kz Hz Hkz]; try discriminate Hst.
  pose proof (steady_impl Z oz s Hz Hs) as H. unfold on_files in Hst. cbn [expand] in Hst.
  remember (snd (frun (impl oz) s)) as R eqn:ER.
  destruct (impl oz) as [a|e|W ow kw] eqn:Ei; try contradiction. cbn [bind stepped] in Hst.
  destruct H as [Hr H]. injection Hst as <- <-. split; [apply readonly_same, Hr|].
  change (at_work ps s (bind (kw (snd (fstep ow s))) (fun x => on_files (kz x)))).
  eapply aw_inside; [exact H|exact Hkz|]. intros r Hrr. apply HG. rewrite <- Ei in ER.
  destruct R as [x|e]; [eapply se_read; [symmetry; exact ER|exact Hrr]|subst r; eapply se_failed; symmetry; exact ER].
Qed.
Lemma at_work_own ps s p : at_work ps s p -> sound s ->
  forall s1 rp, stepped p s = Some (s1, rp) -> s1 = s /\ at_work ps s rp.
Proof.
  intros [q Hq HG|X q k R Hst Hk HG] Hs s1 rp H; [eapply own_between; eauto|].
  destruct q as [x|e|Y o kq]; cbn [bind] in H.
  - cbn [steady] in Hst. subst R. eapply own_between; eauto.
  - discriminate H.
  - destruct Hst as [Hr Hst]. injection H as <- <-. split; [apply readonly_same, Hr|].
    eapply aw_inside; [apply Hst; [apply ext_refl|exact Hs]|exact Hk|exact HG].
Qed.
Lemma on_files_ended (p : prog cop A) r : on_files p = WatchSpec.ended r -> p = match r with Ok a => Ret a | Err e => Raise e end.
Proof.
  destruct p as [a|e|X o k]; destruct r as [b|e']; unfold on_files; cbn [expand WatchSpec.ended]; intros H; try discriminate H.
  - congruence.
  - congruence.
  - exfalso. destruct o; discriminate H.
  - exfalso. destruct o; discriminate H.
Qed.
Lemma at_work_ended ps s r : at_work ps s (WatchSpec.ended r) -> G r.
Proof.
  assert (H0 : forall p, (forall r, sees ps s p r -> G r) -> on_files p = WatchSpec.ended r -> G r).
  { intros p HG Hp. apply on_files_ended in Hp. subst p. apply HG. destruct r; constructor. }
  intros H. remember (WatchSpec.ended r) as rp eqn:Erp. destruct H as [p Hp HG|X q k R Hst Hk HG]; [eapply H0; eauto|].
  destruct q as [x|e|Y o kq]; cbn [bind steady] in *.
  - subst R. eapply H0; eauto.
  - subst R. destruct r as [b|e']; cbn [WatchSpec.ended] in Erp; [discriminate Erp|]. injection Erp as <-. apply HG. reflexivity.
  - destruct r; discriminate Erp.
Qed.

(** the reader is the first process *)
Lemma watch_step rp ps s ps1 s1 : istep (rp :: ps) s ps1 s1 ->
  (exists rp1, stepped rp s = Some (s1, rp1) /\ ps1 = rp1 :: ps) \/ (exists ps', ps1 = rp :: ps' /\ istep ps s ps' s1).
Proof.
  intros H. remember (rp :: ps) as l eqn:El. destruct H as [pa X o k pb s0].
  destruct pa as [|x pa]; cbn [app] in *.
  - injection El as <- <-. left. eexists. split; [reflexivity|reflexivity].
  - injection El as -> <-. right. eexists. split; [reflexivity|apply is_step].
Qed.
Lemma watch ps0 s0 ps2 s2 : interleave ps0 s0 ps2 s2 -> fine s2 ->
  forall rp ps r ps', ps0 = rp :: ps -> ps2 = WatchSpec.ended r :: ps' -> sound s0 -> all_keep ps s0 -> at_work ps s0 rp ->
  G r /\ interleave ps s0 ps' s2.
Proof.
  induction 1 as [pl s|pl s pl1 s1 pl2 s2 H1 H2 IH]; intros Hf rp ps r ps' E0 E2 Hs Hk Hw.
  - rewrite E0 in E2. injection E2 as -> ->. split; [eapply at_work_ended; eauto|apply il_refl].
  - subst pl. destruct (watch_step _ _ _ _ _ H1) as [[rp1 [Hst ->]]|[ps1 [-> Hst]]].
    + destruct (at_work_own _ _ _ Hw Hs _ _ Hst) as [-> Hw1]. eapply IH; eauto.
    + assert (Hf1 : fine s1).
      { destruct Hf as [F1 F2]. assert (Hx : forall (pa : list (prog fop A)) sa pb sb, interleave pa sa pb sb -> fine sb -> fine sa).
        { clear. induction 1 as [|pa sa p1 s1 p2 s2 H1 H2 IH]; auto. intros Hf. apply IH in Hf. destruct H1. eapply fine_before; exact Hf. }
        eapply Hx; [exact H2|split; assumption]. }
      destruct (pool_step _ _ _ _ Hst Hf1 Hs Hk) as [Hs1 [He Hk1]].
      destruct (IH Hf rp ps1 r ps' eq_refl E2 Hs1 Hk1 (at_work_others _ _ _ _ _ Hst He Hw)) as [Hg Hi].
      split; [exact Hg|]. eapply il_step; eauto.
Qed.
End Reader.

Lemma sound_after h : no_collision (files_after h) -> sound (files_after h).
Proof.
  intros HN. pose proof (R_after h HL HN) as HR. split.
  - destruct (r_heads _ _ HR) as [d [Hd [_ [_ Hc]]]]. unfold heads_rel in Hd. destruct (f_heads (files_after h)) as [b|]; [|left; reflexivity].
    right; right. exists d. subst b. split; [reflexivity|]. intros n cid Hn. destruct (Hc n cid Hn) as [H1 [l [_ H2]]]. split; [exact H1|eauto].
  - intros cid b Hb. destruct (session_intact h fs0 HN intact_init cid b Hb) as [H1 H2]. exists b. split; [exact H2|exact H1].
Qed.
End Watch.

Section Watch_end.
Context {E : Env}.
Lemma c85_reads : store_laws -> clock_injective -> load [] = None ->
  forall A h (p : prog cop A) (qs : list (prog cop A)) r ps' s', allowed reads_only p -> Forall (allowed no_rmtree) qs ->
  interleave (on_files p :: map on_files qs) (files_after h) (WatchSpec.ended r :: ps') s' -> no_collision s' ->
  sees (map on_files qs) (files_after h) p r /\ interleave (map on_files qs) (files_after h) ps' s'.
Proof.
  intros HL HC HE A h p qs r ps' s' Hp Hq Hi HN.
  assert (HD : NoDup (f_written s')) by (apply (written_once HL (p :: qs) h _ s' HC Hi)).
  assert (HN0 : no_collision (files_after h)) by (eapply no_collision_incl; [eapply interleave_written; exact Hi|exact HN]).
  eapply (watch HL HE (fun r => sees (map on_files qs) (files_after h) p r) _ _ _ _ Hi (conj HN HD)); try reflexivity.
  - apply (sound_after HL h HN0).
  - unfold all_keep. apply Forall_map. eapply Forall_impl; [|exact Hq]. intros q Hx. apply (k_on_files HL HE); exact Hx.
  - apply aw_between; auto.
Qed.

Lemma deletes_none cs : (forall c, In c cs -> deletes_all c = false) -> Forall (allowed no_rmtree) (map exec cs).
Proof.
  intros H. apply Forall_map, Forall_forall. intros c Hc. apply H in Hc. apply exec_no_rmtree. destruct c; try exact I; [discriminate Hc|exact Hc].
Qed.
Lemma c85_calls : store_laws -> clock_injective -> load [] = None ->
  forall h cs (p : prog cop outcome) r ps' s', allowed reads_only p -> (forall c, In c cs -> deletes_all c = false) ->
  interleave (on_files p :: map (fun c => on_files (exec c)) cs) (files_after h) (WatchSpec.ended r :: ps') s' -> no_collision s' ->
  sees (map (fun c => on_files (exec c)) cs) (files_after h) p r.
Proof.
  intros HL HC HE h cs p r ps' s' Hp Hd Hi HN. rewrite <- (map_map exec on_files) in Hi |- *.
  exact (proj1 (c85_reads HL HC HE _ h p (map exec cs) r ps' s' Hp (deletes_none cs Hd) Hi HN)).
Qed.
Lemma c85_no_trace : store_laws -> clock_injective -> load [] = None ->
  forall h cs (p : prog cop outcome) r ps' s', allowed reads_only p -> (forall c, In c cs -> deletes_all c = false) ->
  interleave (on_files p :: map (fun c => on_files (exec c)) cs) (files_after h) (WatchSpec.ended r :: ps') s' -> no_collision s' ->
  interleave (map (fun c => on_files (exec c)) cs) (files_after h) ps' s'.
Proof.
  intros HL HC HE h cs p r ps' s' Hp Hd Hi HN. rewrite <- (map_map exec on_files) in Hi |- *.
  exact (proj2 (c85_reads HL HC HE _ h p (map exec cs) r ps' s' Hp (deletes_none cs Hd) Hi HN)).
Qed.

Lemma interleave_trans {A} (a : list (prog fop A)) s b s1 c s2 : interleave a s b s1 -> interleave b s1 c s2 -> interleave a s c s2.
Proof. induction 1; eauto using il_step. Qed.
Definition read_ok {A} (ps : list (prog fop A)) s (p : prog cop A) r : Prop :=
  match p with Vis o1 k1 => exists x, snd (frun (impl o1) s) = Ok x /\ sees ps s (k1 x) r | _ => False end.
Definition read_err {A} s (p : prog cop A) e : Prop := match p with Vis o1 k1 => snd (frun (impl o1) s) = Err e | _ => False end.
Lemma sees_one {A} (ps : list (prog fop A)) s X (o : cop X) (f : X -> prog cop A) r : sees ps s (Vis o f) r ->
  exists ps1 s1, interleave ps s ps1 s1 /\
    ((exists x, snd (frun (impl o) s1) = Ok x /\ sees ps1 s1 (f x) r) \/ (exists e, snd (frun (impl o) s1) = Err e /\ r = Err e)).
Proof.
  intros H. remember (Vis o f) as p eqn:Ep. revert X o f Ep.
  induction H as [| |ps s ps' s' p r H1 H2 IH|ps s Y o' k x r H1 H2 IH|ps s Y o' k e H1]; intros X o f Ep; try discriminate Ep.
  - destruct (IH _ _ _ Ep) as [ps1 [s1 [H3 H4]]]. exists ps1, s1. split; [eapply interleave_trans; eauto|exact H4].
  - exists ps, s. split; [apply il_refl|].
    assert (G : read_ok ps s (Vis o f) r) by (rewrite <- Ep; exists x; auto). left. exact G.
  - exists ps, s. split; [apply il_refl|]. right. exists e. split; [|reflexivity].
    assert (G : read_err s (Vis o f) e) by (rewrite <- Ep; exact H1). exact G.
Qed.
Lemma sees_lift {A} (ps : list (prog fop A)) s (x r : result A) : sees ps s (lift x) r -> r = x.
Proof.
  intros H. remember (lift x) as p eqn:Ep. induction H; auto; destruct x; cbn [lift] in Ep; try discriminate Ep; injection Ep as ->; reflexivity.
Qed.
Lemma c85_one_log : store_laws -> clock_injective -> load [] = None ->
  forall h cs n (f : list block -> result outcome) r ps' s', (forall c, In c cs -> deletes_all c = false) ->
  interleave (on_files (l <- perform (CRead n) ;; lift (f l)) :: map (fun c => on_files (exec c)) cs) (files_after h)
    (WatchSpec.ended r :: ps') s' -> no_collision s' ->
  exists s1, at_some_time (map (fun c => on_files (exec c)) cs) (files_after h) s1 /\
    r = (match reads s1 n with Ok l => f l | Err e => Err e end).
Proof.
  intros HL HC HE h cs n f r ps' s' Hd Hi HN.
  assert (Hp : allowed reads_only (l <- perform (CRead n) ;; lift (f l))).
  { apply allowed_bind; [apply allowed_perform; exact I|]. intros l. apply allowed_lift. }
  pose proof (c85_calls HL HC HE h cs _ r ps' s' Hp Hd Hi HN) as Hs. cbn [perform bind] in Hs.
  apply sees_one in Hs. destruct Hs as [ps1 [s1 [H1 H2]]]. exists s1. split; [eexists; exact H1|].
  unfold reads. change (read_chain n) with (impl (CRead n)).
  destruct H2 as [[x [H2 H3]]|[e [H2 ->]]]; rewrite H2; [|reflexivity].
  apply sees_lift in H3. exact H3.
Qed.

Lemma recommend_reads acct addrs reply from : allowed reads_only (recommend acct addrs reply from).
Proof.
  unfold recommend, own_config, ui_recommendation.
  repeat first [apply allowed_lift|apply allowed_perform; exact I|apply allowed_mapM; intros ? _|apply allowed_bind; [|intros ?]].
  destruct (latest_config _); constructor.
Qed.

(** a process on its own: what holds at every step *)
Fixpoint always {A} (P : fstate -> bool) (fuel : nat) (p : prog fop A) (s : fstate) : bool :=
  P s && match p with
         | Vis o k => match fuel with O => false | S f => always P f (k (snd (fstep o s))) (fst (fstep o s)) end
         | _ => true
         end.
Lemma always_sound {A} P fuel (p : prog fop A) s s1 : always P fuel p s = true -> at_some_time [p] s s1 -> P s1 = true.
Proof.
  intros H [ps1 Hi]. remember [p] as ps eqn:Ep. revert fuel p Ep H.
  induction Hi as [ps s|ps s pa sa pb sb H1 H2 IH]; intros fuel p Ep H.
  - destruct fuel; cbn [always] in H; apply andb_prop in H; apply H.
  - destruct H1 as [p0 X o k p1 s0]. destruct p0 as [|y p0]; [|destruct p0; discriminate Ep]. cbn [app] in *. injection Ep as <- ->.
    destruct fuel; cbn [always] in H; apply andb_prop in H; destruct H as [_ H]; [discriminate H|].
    eapply IH; [reflexivity|exact H].
Qed.
End Watch_end.
