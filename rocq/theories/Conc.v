(** Several processes using one state directory at the same time: their file operations
    interleave in any order (chainstore.py takes no lock). *)
From Verif Require Import Base PyStr Env Prog Chain Fs Refine StoreFacts.

Section Conc.
Context {E : Env}.

(** One step of one process of the pool. *)
Inductive istep {A} : list (prog fop A) -> fstate -> list (prog fop A) -> fstate -> Prop :=
| is_step ps1 X (o : fop X) k ps2 s :
    istep (ps1 ++ Vis o k :: ps2) s (ps1 ++ k (snd (fstep o s)) :: ps2) (fst (fstep o s)).
Inductive interleave {A} : list (prog fop A) -> fstate -> list (prog fop A) -> fstate -> Prop :=
| il_refl ps s : interleave ps s ps s
| il_step ps s ps1 s1 ps2 s2 : istep ps s ps1 s1 -> interleave ps1 s1 ps2 s2 -> interleave ps s ps2 s2.

(** Executable scheduler, for examples: the processes named by the list take one step each. *)
Fixpoint nth_step {A} (i : nat) (ps : list (prog fop A)) (s : fstate) : list (prog fop A) * fstate :=
  match i, ps with
  | _, [] => (ps, s)
  | O, Vis o k :: ps' => (k (snd (fstep o s)) :: ps', fst (fstep o s))
  | O, p :: ps' => (p :: ps', s)
  | S i', p :: ps' => let (ps1, s1) := nth_step i' ps' s in (p :: ps1, s1)
  end.
Fixpoint schedule {A} (is : list nat) (ps : list (prog fop A)) (s : fstate) : list (prog fop A) * fstate :=
  match is with
  | [] => (ps, s)
  | i :: is' => let (ps1, s1) := nth_step i ps s in schedule is' ps1 s1
  end.

Lemma nth_step_interleave {A} i (ps : list (prog fop A)) s :
  forall pre, interleave (pre ++ ps) s (pre ++ fst (nth_step i ps s)) (snd (nth_step i ps s)).
Proof.
  revert i. induction ps as [|p ps IH]; intros i pre; [destruct i; apply il_refl|].
  destruct i as [|i].
  - destruct p as [a|e|X o k]; try apply il_refl. cbn [nth_step fst snd].
    eapply il_step; [apply is_step|apply il_refl].
  - cbn [nth_step]. specialize (IH i (pre ++ [p])). destruct (nth_step i ps s) as [ps1 s1]. cbn [fst snd] in *.
    rewrite <- !app_assoc in IH. exact IH.
Qed.
Lemma interleave_trans {A} (p1 : list (prog fop A)) s1 p2 s2 p3 s3 :
  interleave p1 s1 p2 s2 -> interleave p2 s2 p3 s3 -> interleave p1 s1 p3 s3.
Proof. induction 1; intros; auto. eapply il_step; eauto. Qed.
Lemma schedule_interleave {A} is (ps : list (prog fop A)) s :
  interleave ps s (fst (schedule is ps s)) (snd (schedule is ps s)).
Proof.
  revert ps s; induction is as [|i is IH]; intros ps s; [apply il_refl|]. cbn [schedule].
  pose proof (nth_step_interleave i ps s []) as H. cbn [app] in H.
  destruct (nth_step i ps s) as [ps1 s1]. cbn [fst snd] in *. eapply interleave_trans; eauto.
Qed.

(** a process that has ended without an exception *)
Definition finished {A} (p : prog fop A) : bool := match p with Ret _ => true | _ => false end.

(** ** What survives any interleaving *)
Section Integrity.
Hypothesis HL : store_laws.
Hypothesis HE : load [] = None.    (* an empty file does not deserialize *)
Variable P : text -> entry -> Prop.   (* which entries may stand in which log *)

Definition world := list bytes.
Definition nocol (w : world) : Prop := forall a b, In a w -> In b w -> sha256 a = sha256 b -> a = b.

(** [cid] is the head of a chain of entries allowed in log [n] *)
Inductive chainof (w : world) (n : text) : text -> Prop :=
| co_root e t : In (dumps (block_data e None t)) w -> P n e -> chainof w n (sha256 (dumps (block_data e None t)))
| co_next e p t : In (dumps (block_data e (Some p) t)) w -> P n e -> chainof w n p ->
    chainof w n (sha256 (dumps (block_data e (Some p) t))).
Lemma chainof_mono w w' n cid : incl w w' -> chainof w n cid -> chainof w' n cid.
Proof. intros Hi. induction 1; [apply co_root|apply co_next]; auto. Qed.

Definition heads_ok (w : world) (h : option bytes) : Prop :=
  h = None \/ h = Some [] \/
  exists d, h = Some (dumps (PyDict d)) /\ forall n cid, dget d n = Some cid -> chainof w n cid.
Definition block_ok (w : world) (cid : text) (b : bytes) : Prop := b = [] \/ (In b w /\ sha256 b = cid).
Definition Inv (s : fstate) : Prop :=
  heads_ok (f_written s) (f_heads s) /\
  forall cid b, dget (f_blocks s) cid = Some b -> block_ok (f_written s) cid b.

Definition pre {X} (w : world) (o : fop X) : Prop :=
  match o with
  | FWriteHeads b => heads_ok w (Some b)
  | FOpenBlock cid b => True
  | FWriteBlock cid b => block_ok w cid b
  | _ => True
  end.
Definition post {X} (w : world) (o : fop X) : X -> Prop :=
  match o in fop X return X -> Prop with
  | FReadHeads => fun x => heads_ok w x
  | FReadBlock cid => fun x => match x with Some b => block_ok w cid b | None => True end
  | FOpenBlock cid b => fun _ => In b w
  | _ => fun _ => True
  end.

Fixpoint fsafe_ {A} (Q : world -> A -> Prop) (p : prog fop A) (w : world) : Prop :=
  match p with
  | Ret a => Q w a
  | Raise _ => True
  | Vis o k => pre w o /\ forall w' x, incl w w' -> nocol w' -> post w' o x -> fsafe_ Q (k x) w'
  end.
Definition fsafe {A} (Q : world -> A -> Prop) (w : world) (p : prog fop A) : Prop := fsafe_ Q p w.
Lemma fs_ret {A} (Q : world -> A -> Prop) w a : Q w a -> fsafe Q w (Ret a). Proof. auto. Qed.
Lemma fs_raise {A} (Q : world -> A -> Prop) w e : fsafe Q w (Raise e). Proof. exact I. Qed.
Lemma fs_vis {A} (Q : world -> A -> Prop) w X (o : fop X) k : pre w o ->
  (forall w' x, incl w w' -> nocol w' -> post w' o x -> fsafe Q w' (k x)) -> fsafe Q w (Vis o k).
Proof. split; auto. Qed.

Definition mono {A} (Q : world -> A -> Prop) := forall w w' a, incl w w' -> Q w a -> Q w' a.

Lemma pre_mono {X} w w' (o : fop X) : incl w w' -> pre w o -> pre w' o.
Proof.
  intros Hi. destruct o; simpl; auto.
  - intros [H|[H|[d [H1 H2]]]]; [left; auto|right; left; auto|].
    right; right. exists d. split; auto. intros. eapply chainof_mono; eauto.
  - intros [->|[H1 H2]]; [left; auto|right; auto].
Qed.
Lemma fsafe_mono {A} (Q : world -> A -> Prop) w w' p : mono Q -> incl w w' -> fsafe Q w p -> fsafe Q w' p.
Proof.
  intros HQ Hi H. destruct p as [a|e|X o k].
  - eapply HQ; eauto.
  - exact I.
  - destruct H as [Hp Hk]. apply fs_vis; [eapply pre_mono; eauto|]. intros w2 x H2. apply Hk. eapply incl_tran; eauto.
Qed.
Lemma fsafe_bind {A B} (Q : world -> A -> Prop) (Q2 : world -> B -> Prop) w p (f : A -> prog fop B) :
  fsafe Q w p -> (forall w' a, incl w w' -> Q w' a -> fsafe Q2 w' (f a)) -> fsafe Q2 w (bind p f).
Proof.
  revert w. induction p as [a|e|X o k IH]; intros w H Hf; cbn [bind].
  - apply Hf; [apply incl_refl|exact H].
  - exact I.
  - destruct H as [Hp Hk]. apply fs_vis; [exact Hp|]. intros w' x H1 H2 H3. apply IH; [apply Hk; auto|].
    intros. apply Hf; auto. eapply incl_tran; eauto.
Qed.

Definition heads_good (w : world) (d : dict text) : Prop := forall n cid, dget d n = Some cid -> chainof w n cid.
Lemma heads_good_mono : mono heads_good.
Proof. intros w w' d Hi H n cid Hn. eapply chainof_mono; eauto. Qed.

Lemma fs_getheads w : fsafe heads_good w getheads.
Proof.
  unfold getheads. apply fs_vis; [exact I|]. intros w' x Hi Hn Hx. simpl in Hx.
  destruct Hx as [->|[->|[d [-> Hd]]]].
  - intros n cid H; discriminate.
  - rewrite HE. exact I.
  - rewrite (load_dumps HL). exact Hd.
Qed.

Definition block_good n (cid : text) (w : world) (b : option fblock) : Prop :=
  match b with
  | None => True
  | Some fb => chainof w n cid /\ exists e, entry_of (fb_tag fb) (fb_args fb) = Some e /\ P n e /\
       match fb_parent fb with Some p => chainof w n p | None => True end
  end.

Lemma fs_get_block w n cid : chainof w n cid -> fsafe (block_good n cid) w (get_block cid).
Proof.
  intros Hc. unfold get_block. apply fs_vis; [exact I|]. intros w' x Hi Hn Hx. simpl in Hx.
  destruct x as [b|]; [|exact I]. cbn [bind].
  destruct Hx as [->|[Hb Hs]]; [rewrite HE; exact I|].
  apply (chainof_mono w w' n cid Hi) in Hc. destruct Hc as [e t Hin HP|e p t Hin HP Hc].
  - assert (b = dumps (block_data e None t)) as -> by (apply Hn; auto).
    rewrite (load_dumps HL). cbn [block_data block_of]. split; [apply co_root; auto|].
    exists e. split; [apply entry_of_args|]. simpl. auto.
  - assert (b = dumps (block_data e (Some p) t)) as -> by (apply Hn; auto).
    rewrite (load_dumps HL). cbn [block_data block_of]. split; [apply co_next; auto|].
    exists e. split; [apply entry_of_args|]. simpl. auto.
Qed.

Definition log_good n (w : world) (l : list block) : Prop := Forall (fun b => P n (bl_entry b)) l.

Lemma fs_walk w n fuel cid : chainof w n cid -> fsafe (log_good n) w (walk fuel cid).
Proof.
  revert w cid. induction fuel as [|f IH]; intros w cid Hc; cbn [walk]; [exact I|].
  eapply fsafe_bind; [apply fs_get_block; exact Hc|]. intros w1 [fb|] Hi Hb; [|constructor].
  destruct Hb as [_ [e [He [HP Hp]]]]. rewrite He.
  eapply fsafe_bind with (Q := log_good n).
  - destruct (fb_parent fb) as [p|]; [|constructor].
    destruct (nonempty p); [apply IH; exact Hp|constructor].
  - intros w2 rest _ Hr. constructor; [exact HP|exact Hr].
Qed.

Lemma fs_read_chain w n : fsafe (log_good n) w (read_chain n).
Proof.
  unfold read_chain. eapply fsafe_bind; [apply fs_getheads|]. intros w1 d Hi Hd.
  destruct (dget d n) as [cid|] eqn:En; [|constructor].
  destruct (nonempty cid); [|constructor].
  apply fs_vis; [exact I|]. intros w2 x Hi2 _ _. cbn [bind]. apply fs_walk. eapply chainof_mono; eauto.
Qed.

Definition parent_good n (w : world) (p : option text) : Prop := match p with Some c => chainof w n c | None => True end.
Lemma fs_head_parent w n : fsafe (parent_good n) w (head_parent n).
Proof.
  unfold head_parent. eapply fsafe_bind; [apply fs_getheads|]. intros w1 d Hi Hd.
  destruct (dget d n) as [cid|] eqn:En; [|exact I].
  destruct (nonempty cid); [|exact I].
  eapply fsafe_bind; [apply (fs_get_block w1 n cid); auto|]. intros w2 b Hi2 Hb.
  destruct b; [apply Hb|exact I].
Qed.

Lemma fs_append w n e : P n e -> fsafe (fun _ _ => True) w (append_entry n e).
Proof.
  intros HP. unfold append_entry. eapply fsafe_bind; [apply fs_head_parent|]. intros w1 p Hi Hp.
  unfold store_block. cbn [bind perform].
  apply fs_vis; [exact I|]. intros w2 t Hi2 _ _.
  apply fs_vis; [exact I|]. intros w3 u3 Hi3 _ Hin. simpl in Hin. clear u3.
  set (ser := dumps (block_data e p t)) in *.
  apply fs_vis; [right; auto|]. intros w4 u4 Hi4 _ _.
  unfold upsert. eapply fsafe_bind; [apply fs_getheads|]. intros w5 d Hi5 Hd.
  apply fs_vis; [exact I|]. intros w6 u6 Hi6 _ _.
  apply fs_vis; [|intros; exact I].
  right; right. eexists. split; [reflexivity|]. intros n' cid'. rewrite dget_dset.
  destruct (text_eqb_spec n' n) as [->|Hne].
  - intros [= <-]. destruct p as [c|]; [apply co_next|apply co_root]; auto 10.
    eapply chainof_mono; [|exact Hp].
    eapply incl_tran; [exact Hi2|]. eapply incl_tran; [exact Hi3|]. eapply incl_tran; [exact Hi4|].
    eapply incl_tran; eauto.
  - intros Hg. eapply chainof_mono; [exact Hi6|]. apply Hd. exact Hg.
Qed.

Lemma fs_remove w f : fsafe (fun _ _ => True) w (remove_if f).
Proof.
  unfold remove_if. eapply fsafe_bind; [apply fs_getheads|]. intros w1 d Hi Hd.
  apply fs_vis; [exact I|]. intros w6 u6 Hi6 _ _.
  apply fs_vis; [|intros; exact I].
  right; right. eexists. split; [reflexivity|]. intros n' cid'. rewrite dget_dremove_if.
  destruct (f n'); [discriminate|]. intros Hg. eapply chainof_mono; [exact Hi6|]. apply Hd. exact Hg.
Qed.

(** Programs that append only allowed entries, as long as what they read is allowed. *)
Definition answers {X} (o : cop X) : X -> Prop :=
  match o in cop X return X -> Prop with
  | CRead n => fun l => Forall (fun b => P n (bl_entry b)) l
  | _ => fun _ => True
  end.
Fixpoint respects {A} (p : prog cop A) : Prop :=
  match p with
  | Ret _ | Raise _ => True
  | Vis o k => match o with CAppend n e => P n e | _ => True end /\ forall x, answers o x -> respects (k x)
  end.

Lemma fs_impl X (o : cop X) w : match o with CAppend n e => P n e | _ => True end ->
  fsafe (fun _ x => answers o x) w (impl o).
Proof.
  intros Hp. destruct o; cbn [impl].
  - apply fs_vis; [exact I|]. intros; exact I.
  - apply fs_vis; [exact I|]. intros; exact I.
  - apply fs_read_chain.
  - apply fs_append, Hp.
  - eapply fsafe_bind; [apply fs_getheads|]. intros; exact I.
  - apply fs_remove.
  - apply fs_vis; [exact I|]. intros; exact I.
  - apply fs_vis; [exact I|]. intros; exact I.
Qed.
Lemma fs_on_files A (p : prog cop A) w : respects p -> fsafe (fun _ _ => True) w (on_files p).
Proof.
  revert w. induction p as [a|e|X o k IH]; intros w H; try exact I.
  destruct H as [Hp Hk].
  unfold on_files. cbn [expand]. eapply fsafe_bind; [apply fs_impl, Hp|].
  intros w' x _ Hx. apply IH, Hk, Hx.
Qed.

(** One operation preserves the invariant. *)
Lemma fstep_Inv X (o : fop X) s : Inv s -> pre (f_written s) o ->
  Inv (fst (fstep o s)) /\ post (f_written (fst (fstep o s))) o (snd (fstep o s)).
Proof.
  intros [Hh Hb] Hp. destruct o; simpl in *.
  - split; [split; assumption|exact I].
  - split; [split; assumption|exact I].
  - destruct (gpg _ _ _ _). split; [split; assumption|exact I].
  - split; [split; assumption|assumption].
  - split; [|exact I]. split; [right; left; reflexivity|assumption].
  - split; [|exact I]. split; assumption.
  - split; [split; assumption|]. destruct (dget (f_blocks s) cid) eqn:Ec; [apply Hb, Ec|exact I].
  - split; [|simpl; auto]. split; simpl.
    + destruct Hh as [H|[H|[d [H1 H2]]]]; [left; auto|right; left; auto|]. right; right.
      exists d. split; auto. intros. eapply chainof_mono; [|eauto]. apply incl_tl, incl_refl.
    + intros cid' b'. rewrite dget_dset. destruct (text_eqb cid' cid).
      * intros [= <-]. left; reflexivity.
      * intros H. destruct (Hb _ _ H) as [->|[H1 H2]]; [left; auto|right; simpl; auto].
  - split; [|exact I]. split; [assumption|]. simpl. intros cid' b'. rewrite dget_dset.
    destruct (text_eqb_spec cid' cid) as [->|]; [intros [= <-]; assumption|apply Hb].
  - split; [split; assumption|exact I].
  - split; [|exact I]. split; [left; reflexivity|]. discriminate.
Qed.

Definition all_safe {A} (w : world) (ps : list (prog fop A)) : Prop := Forall (fsafe (fun _ _ => True) w) ps.

Lemma istep_safe {A} (ps : list (prog fop A)) s ps' s' : istep ps s ps' s' -> nocol (f_written s') ->
  Inv s -> all_safe (f_written s) ps -> Inv s' /\ all_safe (f_written s') ps'.
Proof.
  intros [ps1 X o k ps2 s0] Hn HI Hs. unfold all_safe in *. apply Forall_app in Hs. destruct Hs as [H1 H2].
  inversion H2 as [|? ? Hp Hr]; subst.
  destruct Hp as [Hpre Hk].
  destruct (fstep_Inv X o s0 HI Hpre) as [HI' Hpost]. split; [exact HI'|].
  assert (Hw : incl (f_written s0) (f_written (fst (fstep o s0)))) by apply fstep_written.
  assert (Hm : mono (fun (_ : world) (_ : A) => True)) by (intros ? ? ? ? ?; exact I).
  apply Forall_app. split; [|constructor].
  - eapply Forall_impl; [|exact H1]. intros p. apply fsafe_mono; auto.
  - apply Hk; auto.
  - eapply Forall_impl; [|exact Hr]. intros p. apply fsafe_mono; auto.
Qed.

Lemma istep_written {A} (ps : list (prog fop A)) s ps' s' : istep ps s ps' s' -> incl (f_written s) (f_written s').
Proof. intros [ps1 X o k ps2 s0]. apply fstep_written. Qed.
Lemma interleave_written {A} (ps : list (prog fop A)) s ps' s' : interleave ps s ps' s' -> incl (f_written s) (f_written s').
Proof. induction 1; [apply incl_refl|]. eapply incl_tran; [eapply istep_written; eauto|assumption]. Qed.
Lemma nocol_incl w w' : incl w w' -> nocol w' -> nocol w.
Proof. intros Hi H a b Ha Hb. apply H; auto. Qed.

Lemma interleave_safe {A} (ps : list (prog fop A)) s ps' s' : interleave ps s ps' s' -> nocol (f_written s') ->
  Inv s -> all_safe (f_written s) ps -> Inv s' /\ all_safe (f_written s') ps'.
Proof.
  induction 1 as [|ps s ps1 s1 ps2 s2 H1 H2 IH]; intros Hn HI Hs; [auto|].
  destruct (istep_safe _ _ _ _ H1 (nocol_incl _ _ (interleave_written _ _ _ _ H2) Hn) HI Hs) as [H3 H4].
  apply IH; auto.
Qed.

(** A safe program run alone. *)
Lemma fsafe_run {A} (Q : world -> A -> Prop) (p : prog fop A) s : fsafe Q (f_written s) p -> Inv s ->
  nocol (f_written (fst (frun p s))) ->
  match snd (frun p s) with Ok a => Q (f_written (fst (frun p s))) a | Err _ => True end.
Proof.
  revert s. induction p as [a|e|X o k IH]; intros s Hs HI Hn; [exact Hs|exact I|].
  destruct Hs as [Hp Hk]. destruct (fstep_Inv X o s HI Hp) as [HI' Hpost].
  unfold frun in *. cbn [run] in *.
  pose proof (fstep_written X o s) as Hw.
  destruct (fstep o s) as [s1 x]. cbn [fst snd] in *. apply IH; auto. apply Hk; auto.
  eapply nocol_incl; [|exact Hn]. apply (frun_written _ (k x) s1).
Qed.

Theorem concurrent_integrity {A} (qs : list (prog cop A)) s ps' s' n l :
  Inv s -> Forall respects qs -> interleave (map on_files qs) s ps' s' -> no_collision s' ->
  snd (frun (read_chain n) s') = Ok l -> Forall (fun b => P n (bl_entry b)) l.
Proof.
  intros HI Hq Hi Hn Hr.
  assert (Hs : all_safe (f_written s) (map on_files qs)).
  { unfold all_safe. apply Forall_map. eapply Forall_impl; [|exact Hq]. intros p. apply fs_on_files. }
  destruct (interleave_safe _ _ _ _ Hi Hn HI Hs) as [HI' _].
  pose proof (fsafe_run (log_good n) (read_chain n) s' (fs_read_chain _ n) HI') as H.
  rewrite Hr in H. apply H. eapply nocol_incl; [|exact Hn].
  assert (Hsame : fst (frun (read_chain n) s') = s') by (apply StoreFacts.readonly_run, StoreFacts.ro_read_chain).
  rewrite Hsame. apply incl_refl.
Qed.

(** A store in normal use satisfies the invariant if its logs contain only allowed entries. *)
Lemma chain_rel_chainof blocks w n cid l : chain_rel blocks w cid l ->
  Forall (fun b => P n (bl_entry b)) l -> chainof w n cid.
Proof.
  induction 1 as [cid e t [_ [Hs Hw]]|cid p e t l [_ [Hs Hw]] Hp Hc IH]; intros Hl; inversion Hl; subst.
  - apply co_root; auto.
  - apply co_next; auto.
Qed.
Lemma R_Inv s a : R s a -> StoreFacts.intact s -> (forall n, Forall (fun b => P n (bl_entry b)) (alog a n)) -> Inv s.
Proof.
  intros HR Hi Hl. split.
  - destruct (r_heads _ _ HR) as [d [Hd [_ [_ Hc]]]]. unfold heads_rel in Hd.
    destruct (f_heads s) as [b|]; [|left; reflexivity]. subst b. right; right. exists d. split; [reflexivity|].
    intros n cid Hn. destruct (Hc n cid Hn) as [_ [l [H1 H2]]]. eapply chain_rel_chainof; [exact H2|].
    specialize (Hl n). unfold alog in Hl. rewrite H1 in Hl. exact Hl.
  - intros cid b Hb. destruct (Hi cid b Hb). right; auto.
Qed.

End Integrity.
End Conc.
