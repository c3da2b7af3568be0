(** Reading chains block by block: proofs of C77. *)
From Verif Require Import Base PyStr Env Prog Chain Gpg Mime States Recommendation Account Cmdline Bot Fs Api Refine Spec StoreFacts StoreProofs Reader ReaderSpec.

Section ReaderProofs.
Context {E : Env}.

(** the block files of a chain *)
Inductive spine (blocks : dict bytes) : text -> list text -> list block -> Prop :=
| sp_root cid e t : dget blocks cid = Some (dumps (block_data e None t)) -> spine blocks cid [cid] [Block t e]
| sp_next cid p e t cs l : dget blocks cid = Some (dumps (block_data e (Some p) t)) -> nonempty p = true -> spine blocks p cs l ->
    spine blocks cid (cid :: cs) (Block t e :: l).
Lemma chain_spine blocks w cid l : chain_rel blocks w cid l -> exists cs, spine blocks cid cs l.
Proof.
  induction 1 as [cid e t [Hg _]|cid p e t l [Hg _] Hp Hc [cs IH]].
  - exists [cid]. constructor. exact Hg.
  - exists (cid :: cs). econstructor; eauto.
Qed.
Lemma spine_path blocks cid cs l : spine blocks cid cs l -> path blocks cid cs.
Proof. induction 1; [eapply path_root|eapply path_next]; eauto. Qed.
Lemma spine_length blocks cid cs l : spine blocks cid cs l -> length cs = length l.
Proof. induction 1; cbn [length]; congruence. Qed.
Lemma spine_NoDup blocks cid cs l : store_laws -> spine blocks cid cs l -> NoDup cs.
Proof. intros HL H. eapply path_NoDup; [exact HL|eapply spine_path; eauto]. Qed.
Lemma spine_hd blocks cid cs l : spine blocks cid cs l -> hd_error cs = Some cid.
Proof. destruct 1; reflexivity. Qed.
Lemma spine_nth blocks cid cs l : spine blocks cid cs l -> forall i c b, nth_error cs i = Some c -> nth_error l i = Some b ->
  dget blocks c = Some (dumps (block_data (bl_entry b) (nth_error cs (S i)) (bl_time b))).
Proof.
  induction 1 as [cid e t Hg|cid p e t cs l Hg Hp Hs IH]; intros i c b Hc Hb.
  - destruct i as [|[|i]]; cbn in Hc, Hb; try discriminate. injection Hc as <-. injection Hb as <-. exact Hg.
  - destruct i as [|i]; cbn [nth_error] in Hc, Hb.
    + injection Hc as <-. injection Hb as <-. apply spine_hd in Hs. destruct cs; [discriminate|]. injection Hs as ->. exact Hg.
    + rewrite (IH i c b Hc Hb). reflexivity.
Qed.

Fixpoint first_some {X A} (g : X -> option A) (l : list X) : option A :=
  match l with [] => None | x :: l' => match g x with Some a => Some a | None => first_some g l' end end.

Lemma get_block_none s cid : dget (f_blocks s) cid = None -> frun (get_block cid) s = (s, Ok None).
Proof. intros H. unfold get_block, frun. cbn. rewrite H. reflexivity. Qed.
Lemma get_block_bad s cid b : dget (f_blocks s) cid = Some b -> load b = None -> frun (get_block cid) s = (s, Err LoadError).
Proof. intros H H1. unfold get_block, frun. cbn. rewrite H, H1. reflexivity. Qed.

(** the outcome of a scan when only the [i] newest blocks are known to be intact *)
Definition outcome_of {A} (g : text * block -> option A) (s' : fstate) (cs : list text) (l : list block) (i : nat) (r : result (option A)) : Prop :=
  match first_some g (combine (firstn i cs) (firstn i l)) with
  | Some a => r = Ok (Some a)
  | None =>
    match nth_error cs i with
    | None => r = Ok None
    | Some c => match dget (f_blocks s') c with
                | None => r = Ok None
                | Some b => load b = None -> r = Err LoadError
                end
    end
  end.
Lemma ro_scan {A} (f : text -> fblock -> result (option A)) fuel cid : allowed readonly (scan f fuel cid).
Proof.
  revert cid; induction fuel as [|k IH]; intros cid; cbn [scan]; [constructor|].
  apply allowed_bind; [apply ro_get_block|]. intros [fb|]; [|constructor]. apply allowed_bind; [apply allowed_lift|]. intros [a|]; [constructor|].
  destruct (fb_parent fb) as [p|]; [|constructor]. destruct (nonempty p); [apply IH|constructor].
Qed.
Lemma ro_scan_chain {A} (f : text -> fblock -> result (option A)) n : allowed readonly (scan_chain f n).
Proof.
  unfold scan_chain. apply allowed_bind; [apply ro_getheads|]. intros d. destruct (dget d n) as [c|]; [|constructor].
  destruct (nonempty c); [|constructor]. apply allowed_bind; [apply allowed_perform; exact I|]. intros k. apply ro_scan.
Qed.
Section Scan.
Hypothesis HL : store_laws.
Context {A : Type} (f : text -> fblock -> result (option A)) (g : text * block -> option A).
Hypothesis Hf : forall c e p t, f c (FBlock (tag_of e) p t (args_of e)) = Ok (g (c, Block t e)).
Lemma scan_good s cid e p t k : dget (f_blocks s) cid = Some (dumps (block_data e p t)) ->
  frun (scan f (S k) cid) s =
    match g (cid, Block t e) with
    | Some a => (s, Ok (Some a))
    | None => match p with Some q => if nonempty q then frun (scan f k q) s else (s, Ok None) | None => (s, Ok None) end
    end.
Proof.
  intros H. cbn [scan]. unfold frun. rewrite run_bind. pose proof (get_block_run HL s cid e p t H) as H1. unfold frun in H1. rewrite H1.
  rewrite run_bind, Hf. cbn [lift run]. destruct (g (cid, Block t e)); [reflexivity|]. cbn [fb_parent]. destruct p as [q|]; [|reflexivity].
  destruct (nonempty q); reflexivity.
Qed.
Lemma scan_run s' blocks cid cs l : spine blocks cid cs l -> forall i fuel,
  (forall c, In c (firstn i cs) -> dget (f_blocks s') c = dget blocks c) -> (Nat.min (S i) (length cs) <= fuel)%nat ->
  outcome_of g s' cs l i (snd (frun (scan f fuel cid) s')).
Proof.
  assert (H0 : forall cid fuel cs l, (1 <= fuel)%nat -> outcome_of g s' (cid :: cs) l 0 (snd (frun (scan f fuel cid) s'))).
  { clear cid cs l. intros cid fuel cs l Hfuel. destruct fuel as [|k]; [lia|]. unfold outcome_of. cbn [firstn combine first_some nth_error scan]. unfold frun. rewrite run_bind.
    destruct (dget (f_blocks s') cid) as [b|] eqn:Eb.
    - intros Ev. pose proof (get_block_bad s' cid b Eb Ev) as H. unfold frun in H. rewrite H. reflexivity.
    - pose proof (get_block_none s' cid Eb) as H. unfold frun in H. rewrite H. reflexivity. }
  induction 1 as [cid e t Hg|cid p e t cs l Hg Hp Hs IH]; intros [|i] fuel Hi Hfuel; try (apply H0; cbn in Hfuel; lia).
  - destruct fuel as [|k]; [cbn in Hfuel; lia|]. rewrite (scan_good s' cid e None t) by (rewrite Hi by (left; reflexivity); exact Hg).
    unfold outcome_of. cbn [firstn]. rewrite !firstn_nil. cbn [combine first_some nth_error].
    destruct (g (cid, Block t e)); [reflexivity|]. destruct i; reflexivity.
  - destruct fuel as [|k]; [cbn in Hfuel; lia|]. rewrite (scan_good s' cid e (Some p) t) by (rewrite Hi by (left; reflexivity); exact Hg).
    unfold outcome_of. cbn [firstn combine first_some nth_error].
    destruct (g (cid, Block t e)); [reflexivity|]. rewrite Hp. apply IH; [intros c Hc; apply Hi; right; exact Hc|cbn [length] in Hfuel; lia].
Qed.
End Scan.

Lemma NoDup_first {X} i (l : list X) : NoDup l -> NoDup (firstn i l).
Proof.
  revert i; induction l as [|x l IH]; intros [|i] H; cbn [firstn]; try constructor; inversion H; subst; auto.
  intros Hi. match goal with H : ~ In x l |- _ => apply H end. rewrite <- (firstn_skipn i l). apply in_or_app. auto.
Qed.
Lemma spine_incl blocks cid cs l : spine blocks cid cs l -> incl cs (dkeys blocks).
Proof. intros H. eapply path_incl, spine_path, H. Qed.
(** the head of a chain, and its files *)
Lemma head_spine s a n : store_laws -> R s a ->
  exists d, heads_rel (f_heads s) d /\
    match dget d n with
    | Some cid => nonempty cid = true /\ exists cs, spine (f_blocks s) cid cs (alog a n)
    | None => alog a n = []
    end.
Proof.
  intros HL HR. destruct (r_heads _ _ HR) as [d [Hd [Hk [_ Hc]]]]. exists d. split; [exact Hd|].
  destruct (dget d n) as [cid|] eqn:En.
  - destruct (Hc n cid En) as [Hne [l [Hl Hcr]]]. split; [exact Hne|]. unfold alog. rewrite Hl. eapply chain_spine; eauto.
  - unfold alog. rewrite (alog_none d a n Hk En). reflexivity.
Qed.
Lemma all_blocks_run s cid cs l fuel : store_laws -> spine (f_blocks s) cid cs l -> (length cs <= fuel)%nat ->
  exists bs, frun (all_blocks fuel cid) s = (s, Ok bs) /\ map fst bs = cs /\
    map (fun x => (fb_time (snd x), fb_tag (snd x), fb_args (snd x))) bs = map (fun b => (bl_time b, tag_of (bl_entry b), args_of (bl_entry b))) l /\
    forall x, hd_error (rev bs) = Some x -> fb_parent (snd x) = None.
Proof.
  intros HL H. revert fuel. induction H as [cid e t Hg|cid p e t cs l Hg Hp Hs IH]; intros [|k] Hk; cbn [length] in Hk; try lia.
  - cbn [all_blocks]. unfold frun. rewrite run_bind. pose proof (get_block_run HL s cid e None t Hg) as H1. unfold frun in H1. rewrite H1.
    cbn [fb_parent]. eexists. split; [reflexivity|]. split; [reflexivity|]. split; [reflexivity|]. intros x [= <-]. reflexivity.
  - cbn [all_blocks]. unfold frun. rewrite run_bind. pose proof (get_block_run HL s cid e (Some p) t Hg) as H1. unfold frun in H1. rewrite H1.
    cbn [fb_parent]. rewrite Hp, run_bind. destruct (IH k ltac:(lia)) as [bs [I1 [I2 [I3 I4]]]]. unfold frun in I1. rewrite I1.
    eexists. split; [reflexivity|]. cbn [map fst snd fb_time fb_tag fb_args bl_time bl_entry]. rewrite I2, I3.
    split; [reflexivity|]. split; [reflexivity|]. intros x. cbn [rev]. destruct bs as [|b0 bs0] eqn:Eb; [inversion Hs; subst; discriminate|].
    rewrite <- Eb in *. intros Hx. apply I4. destruct (rev bs) as [|y ys] eqn:Er; [|exact Hx].
    rewrite Eb in Er. cbn [rev] in Er. destruct (rev bs0); discriminate.
Qed.
Lemma chain_blocks_run s a n : store_laws -> R s a ->
  exists bs, frun (chain_blocks n) s = (s, Ok bs) /\
    map (fun x => (fb_time (snd x), fb_tag (snd x), fb_args (snd x))) bs = map (fun b => (bl_time b, tag_of (bl_entry b), args_of (bl_entry b))) (alog a n) /\
    (forall x, hd_error (rev bs) = Some x -> fb_parent (snd x) = None) /\
    exists d, heads_rel (f_heads s) d /\
      match dget d n with
      | Some cid => nonempty cid = true /\ spine (f_blocks s) cid (map fst bs) (alog a n)
      | None => alog a n = [] /\ bs = []
      end.
Proof.
  intros HL HR. destruct (head_spine s a n HL HR) as [d [Hd Hs]].
  unfold chain_blocks, frun. rewrite run_bind. pose proof (getheads_run HL s d Hd) as Hg. unfold frun in Hg. rewrite Hg.
  destruct (dget d n) as [cid|] eqn:En.
  - destruct Hs as [Hne [cs Hs]]. rewrite Hne, run_bind. cbn [perform run fstep].
    assert (Hlen : (length cs <= S (length (f_blocks s)))%nat).
    { pose proof (spine_incl _ _ _ _ Hs) as Hi. pose proof (spine_NoDup _ _ _ _ HL Hs) as Hn.
      pose proof (NoDup_incl_length Hn Hi) as H1. unfold dkeys in H1. rewrite map_length in H1. lia. }
    destruct (all_blocks_run s cid cs _ _ HL Hs Hlen) as [bs [I1 [I2 [I3 I4]]]]. unfold frun in I1.
    exists bs. split; [exact I1|]. split; [exact I3|]. split; [exact I4|]. exists d. split; [exact Hd|]. rewrite En, I2. auto.
  - exists []. split; [reflexivity|]. rewrite Hs. split; [reflexivity|]. split; [discriminate|]. exists d. rewrite En. auto.
Qed.
Lemma log_files_run s a n bs : store_laws -> R s a -> frun (chain_blocks n) s = (s, Ok bs) -> log_files s n = map fst bs.
Proof. intros HL HR H. unfold log_files. rewrite H. reflexivity. Qed.

Lemma scan_chain_run {A} (f : text -> fblock -> result (option A)) g s a n i s' : store_laws -> R s a ->
  (forall c e p t, f c (FBlock (tag_of e) p t (args_of e)) = Ok (g (c, Block t e))) ->
  newest_kept i n s s' -> outcome_of g s' (log_files s n) (alog a n) i (snd (frun (scan_chain f n) s')).
Proof.
  intros HL HR Hf [Hh Hk]. destruct (chain_blocks_run s a n HL HR) as [bs [B1 [_ [_ [d [Hd Hs]]]]]].
  rewrite (log_files_run s a n bs HL HR B1) in *.
  unfold scan_chain. unfold frun at 1. rewrite run_bind.
  assert (Hd' : heads_rel (f_heads s') d) by (rewrite Hh; exact Hd).
  pose proof (getheads_run HL s' d Hd') as Hg. unfold frun in Hg. rewrite Hg.
  destruct (dget d n) as [cid|].
  - destruct Hs as [Hne Hs]. rewrite Hne, run_bind. cbn [perform run fstep].
    apply (scan_run HL f g Hf s' (f_blocks s) cid (map fst bs) (alog a n) Hs i); [exact Hk|].
    assert (Hn : NoDup (firstn i (map fst bs))).
    { apply NoDup_first, (spine_NoDup _ _ _ _ HL Hs). }
    assert (Hi : incl (firstn i (map fst bs)) (dkeys (f_blocks s'))).
    { intros c Hc. specialize (Hk c Hc). pose proof (spine_incl _ _ _ _ Hs) as Hinc.
      assert (Hin : In c (dkeys (f_blocks s))).
      { apply Hinc. rewrite <- (firstn_skipn i (map fst bs)). apply in_or_app. auto. }
      destruct (dget (f_blocks s') c) as [b|] eqn:Eb; [apply dget_Some_key; eauto|].
      symmetry in Hk. apply dget_None in Hk. contradiction. }
    pose proof (NoDup_incl_length Hn Hi) as H1. unfold dkeys in H1. rewrite map_length in H1. rewrite firstn_length in H1. lia.
  - destruct Hs as [Hs1 ->]. unfold outcome_of. cbn [map]. rewrite firstn_nil. cbn [combine first_some]. destruct i; reflexivity.
Qed.

Definition pick (r : reader) (x : text * block) : option entry := if accepts r (bl_entry (snd x)) then Some (bl_entry (snd x)) else None.
Lemma accepts_tag r e : accepts r e = true -> tag_of e = reader_tag r.
Proof. destruct r, e; cbn; congruence. Qed.
Lemma pick_first r cs l : length cs = length l -> first_some (pick r) (combine cs l) = find (accepts r) (map bl_entry l).
Proof.
  revert cs; induction l as [|b l IH]; intros [|c cs] H; cbn in H; try discriminate; [reflexivity|].
  cbn [combine first_some map find]. unfold pick at 1. cbn [snd]. destruct (accepts r (bl_entry b)); [reflexivity|]. apply IH. congruence.
Qed.
Lemma read_first_outcome r s a n i s' : store_laws -> R s a -> newest_kept i n s s' ->
  outcome_of (pick r) s' (log_files s n) (alog a n) i (snd (frun (read_first r n) s')).
Proof.
  intros HL HR Hk. unfold read_first. apply (scan_chain_run _ _ s a n i s' HL HR); [|exact Hk].
  intros c e p t. cbn [fb_tag fb_args]. unfold pick. cbn [snd bl_entry]. rewrite entry_of_args.
  destruct (text_eqb_spec (tag_of e) (reader_tag r)) as [He|He]; [reflexivity|].
  destruct (accepts r e) eqn:Ea; [|reflexivity]. apply accepts_tag in Ea. contradiction.
Qed.
Lemma same_length s a n : store_laws -> R s a -> length (log_files s n) = length (alog a n).
Proof.
  intros HL HR. destruct (chain_blocks_run s a n HL HR) as [bs [B1 [B2 _]]]. rewrite (log_files_run s a n bs HL HR B1).
  apply (f_equal (@length _)) in B2. rewrite !map_length in B2. rewrite map_length. exact B2.
Qed.
Lemma first_length {X Y} (cs : list X) (l : list Y) i : length cs = length l -> length (firstn i cs) = length (firstn i l).
Proof. intros H. rewrite !firstn_length, H. reflexivity. Qed.

Lemma logged_alog h n : alog (fst (session h ast0)) n = logged h n.
Proof. unfold logged. rewrite session_log. reflexivity. Qed.
Lemma frun_ro {A} (p : prog fop A) s : allowed readonly p -> frun p s = (s, snd (frun p s)).
Proof. intros H. pose proof (readonly_run _ p s H) as H1. destruct (frun p s) as [s1 r]. cbn in *. congruence. Qed.
Lemma ro_read_first r n : allowed readonly (read_first r n). Proof. apply ro_scan_chain. Qed.

(** the general statement *)
Lemma read_outcome h n i s' r : store_laws -> no_collision (files_after h) -> newest_kept i n (files_after h) s' ->
  frun (read_first r n) s' = (s', snd (frun (read_first r n) s')) /\
  match find (accepts r) (map bl_entry (firstn i (logged h n))) with
  | Some e => snd (frun (read_first r n) s') = Ok (Some e)
  | None =>
    match nth_error (log_files (files_after h) n) i with
    | None => snd (frun (read_first r n) s') = Ok None
    | Some c => match dget (f_blocks s') c with
                | None => snd (frun (read_first r n) s') = Ok None
                | Some b => load b = None -> snd (frun (read_first r n) s') = Err LoadError
                end
    end
  end.
Proof.
  intros HL HN Hk. split; [apply frun_ro, ro_read_first|].
  pose proof (R_after h HL HN) as HR. pose proof (read_first_outcome r _ _ n i s' HL HR Hk) as H. unfold outcome_of in H.
  rewrite pick_first in H by (apply first_length, same_length; assumption). rewrite logged_alog in H. exact H.
Qed.
Theorem c77_readers : store_laws -> forall h n r, no_collision (files_after h) ->
  frun (read_first r n) (files_after h) = (files_after h, Ok (find (accepts r) (map bl_entry (logged h n)))).
Proof.
  intros HL h n r HN. destruct (read_outcome h n (length (logged h n)) (files_after h) r HL HN) as [H1 H2]; [split; auto|].
  rewrite H1. f_equal. rewrite firstn_all in H2. destruct (find (accepts r) (map bl_entry (logged h n))); [exact H2|].
  rewrite <- (logged_alog h n), <- (same_length _ _ n HL (R_after h HL HN)) in H2.
  rewrite (proj2 (nth_error_None (log_files (files_after h) n) _)) in H2 by lia. exact H2.
Qed.
Theorem c77_newest : store_laws -> forall h n r i s' e, no_collision (files_after h) -> newest_kept i n (files_after h) s' ->
  find (accepts r) (map bl_entry (firstn i (logged h n))) = Some e ->
  frun (read_first r n) s' = (s', Ok (find (accepts r) (map bl_entry (logged h n)))).
Proof.
  intros HL h n r i s' e HN Hk He. destruct (read_outcome h n i s' r HL HN Hk) as [H1 H2]. rewrite He in H2. rewrite H1, H2. do 2 f_equal.
  rewrite <- (firstn_skipn i (logged h n)), map_app. revert He. generalize (map bl_entry (firstn i (logged h n))). intros l1 He.
  induction l1 as [|x l1 IH]; cbn in *; [discriminate|]. destruct (accepts r x); auto.
Qed.
Theorem c77_missing : store_laws -> forall h n r i s' c, no_collision (files_after h) -> newest_kept i n (files_after h) s' ->
  nth_error (log_files (files_after h) n) i = Some c -> dget (f_blocks s') c = None ->
  frun (read_first r n) s' = (s', Ok (find (accepts r) (map bl_entry (firstn i (logged h n))))).
Proof.
  intros HL h n r i s' c HN Hk Hc Hm. destruct (read_outcome h n i s' r HL HN Hk) as [H1 H2]. rewrite Hc, Hm in H2. rewrite H1. f_equal.
  destruct (find _ _); exact H2.
Qed.
Theorem c77_unreadable : store_laws -> forall h n r i s' c b, no_collision (files_after h) -> newest_kept i n (files_after h) s' ->
  nth_error (log_files (files_after h) n) i = Some c -> dget (f_blocks s') c = Some b -> load b = None ->
  frun (read_first r n) s' =
    (s', match find (accepts r) (map bl_entry (firstn i (logged h n))) with Some e => Ok (Some e) | None => Err LoadError end).
Proof.
  intros HL h n r i s' c b HN Hk Hc Hm Hb. destruct (read_outcome h n i s' r HL HN Hk) as [H1 H2]. rewrite Hc, Hm in H2. rewrite H1. f_equal.
  destruct (find _ _); [exact H2|apply H2, Hb].
Qed.

(** another block in the place of one *)
Lemma spine_skip blocks cid cs l : spine blocks cid cs l -> forall i c, nth_error cs i = Some c -> spine blocks c (skipn i cs) (skipn i l).
Proof.
  induction 1 as [cid e t Hg|cid p e t cs l Hg Hp Hs IH]; intros [|i] c Hc.
  - injection Hc as <-. constructor. exact Hg.
  - destruct i; discriminate.
  - injection Hc as <-. cbn [skipn]. econstructor; eauto.
  - cbn [skipn]. apply IH, Hc.
Qed.
Lemma get_block_other s cid b tag p t args : dget (f_blocks s) cid = Some b ->
  load b = Some (PyList (SStr tag :: match p with Some q => SStr q | None => SNone end :: SFloat t :: args)) ->
  frun (get_block cid) s = (s, Ok (Some (FBlock tag p t args))).
Proof. intros H H1. unfold get_block, frun. cbn. rewrite H, H1. destruct p; reflexivity. Qed.
Section Replaced.
Hypothesis HL : store_laws.
Context {A : Type} (f : text -> fblock -> result (option A)) (g : text * block -> option A).
Hypothesis Hf : forall c e p t, f c (FBlock (tag_of e) p t (args_of e)) = Ok (g (c, Block t e)).
Lemma scan_to s' blocks cid cs l : spine blocks cid cs l -> forall i c fuel,
  (forall c, In c (firstn i cs) -> dget (f_blocks s') c = dget blocks c) -> nth_error cs i = Some c -> (i <= fuel)%nat ->
  frun (scan f fuel cid) s' =
    match first_some g (combine (firstn i cs) (firstn i l)) with Some a => (s', Ok (Some a)) | None => frun (scan f (fuel - i) c) s' end.
Proof.
  induction 1 as [cid e t Hg|cid p e t cs l Hg Hp Hs IH]; intros [|i] c fuel Hi Hc Hfuel.
  - injection Hc as <-. cbn [firstn combine first_some]. rewrite Nat.sub_0_r. reflexivity.
  - destruct i; discriminate.
  - injection Hc as <-. cbn [firstn combine first_some]. rewrite Nat.sub_0_r. reflexivity.
  - destruct fuel as [|k]; [lia|]. rewrite (scan_good HL f g Hf s' cid e (Some p) t) by (rewrite Hi by (left; reflexivity); exact Hg).
    cbn [firstn combine first_some]. destruct (g (cid, Block t e)); [reflexivity|]. rewrite Hp.
    rewrite (IH i c k); [reflexivity|intros x Hx; apply Hi; right; exact Hx|exact Hc|lia].
Qed.
Lemma scan_all s' blocks cid cs l : spine blocks cid cs l -> forall fuel,
  (forall c, In c cs -> dget (f_blocks s') c = dget blocks c) -> (length cs <= fuel)%nat ->
  frun (scan f fuel cid) s' = (s', Ok (first_some g (combine cs l))).
Proof.
  induction 1 as [cid e t Hg|cid p e t cs l Hg Hp Hs IH]; intros [|k] Hi Hk; cbn [length] in Hk; try lia.
  - rewrite (scan_good HL f g Hf s' cid e None t) by (rewrite Hi by (left; reflexivity); exact Hg). cbn [combine first_some].
    destruct (g (cid, Block t e)); reflexivity.
  - rewrite (scan_good HL f g Hf s' cid e (Some p) t) by (rewrite Hi by (left; reflexivity); exact Hg). cbn [combine first_some].
    destruct (g (cid, Block t e)); [reflexivity|]. rewrite Hp. apply IH; [intros x Hx; apply Hi; right; exact Hx|lia].
Qed.
Lemma scan_replaced s' blocks cid cs l i c b tag t args fuel : spine blocks cid cs l -> NoDup cs ->
  (forall x, In x cs -> x <> c -> dget (f_blocks s') x = dget blocks x) -> nth_error cs i = Some c ->
  dget (f_blocks s') c = Some b ->
  load b = Some (PyList (SStr tag :: match nth_error cs (S i) with Some q => SStr q | None => SNone end :: SFloat t :: args)) ->
  (length cs <= fuel)%nat ->
  frun (scan f fuel cid) s' =
    (s', match first_some g (combine (firstn i cs) (firstn i l)) with
         | Some a => Ok (Some a)
         | None => match f c (FBlock tag (nth_error cs (S i)) t args) with
                   | Err e => Err e
                   | Ok (Some a) => Ok (Some a)
                   | Ok None => Ok (first_some g (combine (skipn (S i) cs) (skipn (S i) l)))
                   end
         end).
Proof.
  intros Hs Hn Hk Hc Hb Hl Hfuel. assert (Hi : (i < length cs)%nat) by (apply nth_error_Some; congruence).
  assert (Hsplit : cs = firstn i cs ++ c :: skipn (S i) cs).
  { rewrite <- (firstn_skipn i cs) at 1. f_equal. clear -Hc. revert i Hc. induction cs as [|x cs IH]; intros [|i] Hc; try discriminate; [injection Hc as ->; reflexivity|]. exact (IH i Hc). }
  assert (Hno : ~ In c (firstn i cs) /\ ~ In c (skipn (S i) cs)).
  { rewrite Hsplit in Hn. apply NoDup_remove_2 in Hn. split; intros Hx; apply Hn, in_or_app; auto. }
  rewrite (scan_to s' blocks cid cs l Hs i c fuel); [|intros x Hx; apply Hk; [rewrite Hsplit; apply in_or_app; auto|intros ->; tauto]|exact Hc|lia].
  destruct (first_some g (combine (firstn i cs) (firstn i l))) as [a|]; [reflexivity|].
  destruct (fuel - i)%nat as [|k] eqn:Ek; [lia|]. cbn [scan]. unfold frun. rewrite run_bind.
  pose proof (get_block_other s' c b tag (nth_error cs (S i)) t args Hb Hl) as H1. unfold frun in H1. rewrite H1.
  rewrite run_bind. destruct (f c (FBlock tag (nth_error cs (S i)) t args)) as [[a|]|e]; [reflexivity| |reflexivity]. cbn [lift run fb_parent].
  pose proof (spine_skip _ _ _ _ Hs i c Hc) as Hsk. assert (Hcs : skipn i cs = c :: skipn (S i) cs).
  { clear -Hc. revert i Hc. induction cs as [|x cs IH]; intros [|i] Hc; try discriminate; [injection Hc as ->; reflexivity|]. exact (IH i Hc). }
  assert (Hln : nth_error cs (S i) = hd_error (skipn (S i) cs)).
  { clear. generalize (S i). intros n. revert cs. induction n as [|n IH]; intros [|x cs]; try reflexivity. exact (IH cs). }
  assert (Hll : skipn (S i) l = tl (skipn i l)).
  { clear. revert l. induction i as [|i IH]; intros [|x l]; try reflexivity. exact (IH l). }
  assert (Hlen : (length cs = i + S (length (skipn (S i) cs)))%nat) by (rewrite Hsplit at 1; rewrite app_length, firstn_length_le by lia; reflexivity).
  assert (Hin : forall x, In x (skipn (S i) cs) -> In x cs) by (intros x Hx; rewrite Hsplit; apply in_or_app; right; right; exact Hx).
  destruct Hno as [_ Hno]. rewrite Hcs in Hsk. rewrite Hln, Hll. clear Hcs Hln Hll Hl H1 Hsplit Hb. revert Hsk Hno Hlen Hin.
  generalize (skipn (S i) cs) as rest, (skipn i l) as ll. intros rest ll Hsk Hno Hlen Hin.
  inversion Hsk as [c' e' t' Hg' H2 H3|c' p e' t' cs' l' Hg' Hp Hs' H2 H3]; subst; [reflexivity|].
  rewrite (spine_hd _ _ _ _ Hs'), Hp. cbn [tl].
  change (run (@fstep E) (scan f k p) s') with (frun (scan f k p) s'). apply (scan_all s' blocks p); [exact Hs'| |lia].
  intros x Hx. apply Hk; [apply Hin, Hx|]. intros ->. contradiction.
Qed.
End Replaced.
Theorem c77_replaced : store_laws -> forall h n r i s' c b tag t args, no_collision (files_after h) -> let cs := log_files (files_after h) n in
  f_heads s' = f_heads (files_after h) -> (forall x, In x cs -> x <> c -> dget (f_blocks s') x = dget (f_blocks (files_after h)) x) ->
  nth_error cs i = Some c -> dget (f_blocks s') c = Some b ->
  load b = Some (PyList (SStr tag :: match nth_error cs (S i) with Some q => SStr q | None => SNone end :: SFloat t :: args)) ->
  let newer := map bl_entry (firstn i (logged h n)) in let older := map bl_entry (skipn (S i) (logged h n)) in
  frun (read_first r n) s' =
    (s', match find (accepts r) newer with
         | Some e => Ok (Some e)
         | None =>
           if text_eqb tag (reader_tag r) then
             match entry_of tag args with
             | Some e => Ok (if accepts r e then Some e else find (accepts r) older)
             | None => Err TypeError
             end
           else Ok (find (accepts r) older)
         end).
Proof.
  intros HL h n r i s' c b tag t args HN cs Hh Hk Hc Hb Hl newer older.
  pose proof (R_after h HL HN) as HR. destruct (chain_blocks_run _ _ n HL HR) as [bs [B1 [_ [_ [d [Hd Hs]]]]]].
  pose proof (log_files_run _ _ n bs HL HR B1) as Hcs. fold cs in Hcs. pose proof (same_length _ _ n HL HR) as Hlen. fold cs in Hlen.
  destruct (dget d n) as [cid|] eqn:En; [|destruct Hs as [_ ->]; rewrite Hcs in Hc; destruct i; discriminate]. destruct Hs as [Hne Hs]. rewrite <- Hcs in Hs.
  rewrite logged_alog in Hs, Hlen. pose proof (spine_NoDup _ _ _ _ HL Hs) as Hnd. pose proof (spine_incl _ _ _ _ Hs) as Hinc.
  unfold read_first, scan_chain. unfold frun at 1. rewrite run_bind. assert (Hd' : heads_rel (f_heads s') d) by (rewrite Hh; exact Hd).
  pose proof (getheads_run HL s' d Hd') as Hg. unfold frun in Hg. rewrite Hg, En, Hne, run_bind. cbn [perform run fstep].
  set (f := fun (_ : text) (fb : fblock) => _).
  assert (Hf : forall c e p t, f c (FBlock (tag_of e) p t (args_of e)) = Ok (pick r (c, Block t e))).
  { intros c0 e p t0. unfold f, pick. cbn [fb_tag fb_args snd bl_entry]. rewrite entry_of_args.
    destruct (text_eqb_spec (tag_of e) (reader_tag r)) as [He|He]; [reflexivity|]. destruct (accepts r e) eqn:Ea; [|reflexivity]. apply accepts_tag in Ea. contradiction. }
  assert (Hfuel : (length cs <= S (length (f_blocks s')))%nat).
  { assert (Hi : incl cs (dkeys (f_blocks s'))).
    { intros x Hx. destruct (text_eqb_spec x c) as [->|Hxc]; [apply dget_Some_key; eauto|].
      specialize (Hk x Hx Hxc). apply Hinc in Hx. destruct (dget (f_blocks s') x) as [b'|] eqn:Eb; [apply dget_Some_key; eauto|].
      symmetry in Hk. apply dget_None in Hk. contradiction. }
    pose proof (NoDup_incl_length Hnd Hi) as H1. unfold dkeys in H1. rewrite map_length in H1. lia. }
  pose proof (scan_replaced HL f (pick r) Hf s' (f_blocks (files_after h)) cid cs (logged h n) i c b tag t args (S (length (f_blocks s'))) Hs Hnd Hk Hc Hb Hl Hfuel) as H.
  unfold frun in H. rewrite H. f_equal. rewrite pick_first by (apply first_length, Hlen). fold newer. destruct (find (accepts r) newer); [reflexivity|].
  assert (Ho : first_some (pick r) (combine (skipn (S i) cs) (skipn (S i) (logged h n))) = find (accepts r) older).
  { apply pick_first. rewrite !skipn_length, Hlen. reflexivity. }
  rewrite Ho. unfold f. cbn [fb_tag fb_args]. destruct (text_eqb tag (reader_tag r)); [|reflexivity]. destruct (entry_of tag args) as [e|]; [|reflexivity].
  destruct (accepts r e); reflexivity.
Qed.

(** the accessors of States.v in terms of readers *)
Theorem c77_accessors : forall l : list block, let first r := find (accepts r) (map bl_entry l) in
  first RConfig = option_map ECfg (latest_config l) /\
  first RKeygen = option_map EKeygen (latest_keygen l) /\
  first RMsg = option_map EMsg (latest_msg_entry l) /\
  first RAc = option_map EMsg (latest_ac_entry l) /\
  (forall id, first (RMsgId id) = option_map EMsg (get_message_entry l id)) /\
  first RGossip = option_map EGossip (latest_gossip_entry l) /\
  (forall id, first (RGossipId id) = option_map EGossip (get_gossip_message_entry l id)) /\
  (forall a, first (RVerif a) = option_map EVerif (find (fun e => text_eqb a (ve_addr e)) (verif_entries l))) /\
  first RVersion = option_map EACfg (hd_error (acfg_entries l)).
Proof.
  intros l. cbv zeta. unfold latest_config, latest_keygen, latest_msg_entry, latest_ac_entry, get_message_entry, latest_gossip_entry, get_gossip_message_entry.
  induction l as [|[t e] l IH]; [repeat split; reflexivity|]. destruct IH as [I1 [I2 [I3 [I4 [I5 [I6 [I7 [I8 I9]]]]]]]].
  destruct e; cbn [map find accepts bl_entry msg_entries gossip_entries keygen_entries cfg_entries acfg_entries verif_entries hd_error option_map]; repeat split; auto.
  - destruct (nonempty (me_keydata e)); auto.
  - intros id. destruct (text_eqb (me_id e) id); auto.
  - intros id. destruct (text_eqb (ge_id e) id); auto.
  - intros a. destruct (text_eqb a (ve_addr e)); auto.
Qed.

(** the other methods *)
Lemma exists_last_dec {X} (l : list X) : l = [] \/ exists l' x, l = l' ++ [x].
Proof. destruct l as [|x l]; [left; reflexivity|]. right. destruct (@exists_last _ (x :: l)) as [l' [y H]]; [discriminate|]. eauto. Qed.
Lemma text_eqb_sym x y : text_eqb x y = text_eqb y x.
Proof. destruct (text_eqb_spec x y), (text_eqb_spec y x); congruence. Qed.
Theorem c77_files : store_laws -> forall h n, no_collision (files_after h) ->
  let s := files_after h in let cs := log_files s n in let l := logged h n in
  length cs = length l /\ NoDup cs /\
  (forall i c b, nth_error cs i = Some c -> nth_error l i = Some b ->
     dget (f_blocks s) c = Some (dumps (block_data (bl_entry b) (nth_error cs (S i)) (bl_time b)))) /\
  (forall i, newest_kept i n s s) /\
  frun (chain_len n) s = (s, Ok (length l)) /\
  (forall c, frun (contains_cid n c) s = (s, Ok (mem_text c cs))) /\
  (forall rep, frun (dump rep n) s =
     (s, match l with [] => Err TypeError | _ => Ok (map (fun b => (bl_time b, tag_of (bl_entry b), shortrepr (rep (args_of (bl_entry b))))) (rev l)) end)) /\
  match rev (combine cs l) with
  | [] => frun (last_parent n) s = (s, Ok None)
  | (c, b) :: _ => frun (last_parent n) s = (s, Ok (Some (c, FBlock (tag_of (bl_entry b)) None (bl_time b) (args_of (bl_entry b)))))
  end.
Proof.
  intros HL h n HN. cbv zeta. pose proof (R_after h HL HN) as HR.
  pose proof (same_length _ _ n HL HR) as Hlen. rewrite logged_alog in Hlen. split; [exact Hlen|].
  destruct (chain_blocks_run _ _ n HL HR) as [bs [B1 [B2 [B3 [d [Hd Hs]]]]]]. pose proof (log_files_run _ _ n bs HL HR B1) as Hcs.
  rewrite logged_alog in *. rewrite Hcs in *.
  split. { destruct (dget d n); [destruct Hs as [_ Hs]; eapply spine_NoDup; eauto|]. destruct Hs as [_ ->]. constructor. }
  split. { intros i c b Hc Hb. destruct (dget d n) as [cid|]; [destruct Hs as [_ Hs]; exact (spine_nth _ _ _ _ Hs i c b Hc Hb)|].
    destruct Hs as [_ ->]. destruct i; discriminate. }
  split; [intros i; split; auto|].
  assert (Hlen' : length bs = length (logged h n)) by (rewrite map_length in Hlen; exact Hlen).
  split. { unfold chain_len, frun. rewrite run_bind. unfold frun in B1. rewrite B1. cbn [run]. rewrite Hlen'. reflexivity. }
  split.
  { intros c. unfold contains_cid.
    set (f := fun (c0 : text) (_ : fblock) => Ok (if text_eqb c0 c then Some tt else None)).
    pose proof (scan_chain_run f (fun x => if text_eqb (fst x) c then Some tt else None) _ _ n (length (logged h n)) (files_after h) HL HR
      (fun _ _ _ _ => eq_refl) (conj eq_refl (fun _ _ => eq_refl))) as H.
    unfold outcome_of in H. rewrite logged_alog, Hcs in H.
    rewrite (proj2 (nth_error_None (map fst bs) _)) in H by (rewrite Hlen; lia).
    rewrite firstn_all in H. rewrite <- Hlen, firstn_all in H.
    unfold frun at 1. rewrite run_bind. pose proof (frun_ro (scan_chain f n) (files_after h) (ro_scan_chain f n)) as H1. unfold frun in H1 at 1. rewrite H1.
    assert (Hm : forall cs (l : list block), length cs = length l -> first_some (fun x : text * block => if text_eqb (fst x) c then Some tt else None) (combine cs l) = if mem_text c cs then Some tt else None).
    { induction cs as [|x cs IH]; intros [|b l] Hl; cbn in Hl; try discriminate; [reflexivity|]. cbn [combine first_some fst mem_text existsb].
      rewrite (IH l) by congruence. unfold mem_text. rewrite text_eqb_sym. destruct (text_eqb c x); reflexivity. }
    rewrite Hm in H by exact Hlen. destruct (mem_text c (map fst bs)); rewrite H; reflexivity. }
  split.
  { intros rep. unfold dump, frun. rewrite run_bind. unfold frun in B1. rewrite B1.
    assert (Hm : map (fun x : text * fblock => (fb_time (snd x), fb_tag (snd x), shortrepr (rep (fb_args (snd x))))) (rev bs) =
                 map (fun b => (bl_time b, tag_of (bl_entry b), shortrepr (rep (args_of (bl_entry b))))) (rev (logged h n))).
    { rewrite !map_rev. f_equal.
      apply (f_equal (map (fun y : Z * text * list scalar => (fst (fst y), snd (fst y), shortrepr (rep (snd y)))))) in B2. rewrite !map_map in B2. exact B2. }
    destruct bs as [|b0 bs], (logged h n) as [|b1 l]; try discriminate Hlen'; [reflexivity|]. cbn [run]. rewrite Hm. reflexivity. }
  unfold last_parent, frun. rewrite run_bind. unfold frun in B1. rewrite B1. cbn [run].
  destruct (exists_last_dec bs) as [->|[bs' [x ->]]].
  { destruct (logged h n); [|discriminate]. reflexivity. }
  destruct (exists_last_dec (logged h n)) as [Hl|[l' [b Hl]]].
  { rewrite Hl in Hlen'. rewrite app_length in Hlen'. cbn in Hlen'. lia. }
  rewrite Hl in *. rewrite map_app in *. cbn [map] in *. rewrite !app_length in Hlen'. cbn [length] in Hlen'.
  assert (Hc : forall (cs : list text) (l : list block) c b, length cs = length l -> combine (cs ++ [c]) (l ++ [b]) = combine cs l ++ [(c, b)]).
  { induction cs as [|y cs IH]; intros [|z l] c0 b0 H0; cbn in H0; try discriminate; [reflexivity|]. cbn. rewrite IH by congruence. reflexivity. }
  rewrite Hc by (rewrite map_length; lia). rewrite !rev_unit in *. cbn [hd_error]. do 3 f_equal.
  rewrite !map_app in B2. cbn [map] in B2. apply app_inj_tail in B2 as [_ B2]. specialize (B3 x eq_refl).
  destruct x as [c [tg pr tm ar]]. cbn [fst snd fb_tag fb_parent fb_time fb_args] in *. injection B2 as -> -> ->. subst pr. reflexivity.
Qed.
Lemma skipn_skipn' {X} : forall a b (l : list X), skipn a (skipn b l) = skipn (b + a) l.
Proof. intros a b. induction b as [|b IH]; intros [|x l]; cbn [skipn Nat.add]; auto. destruct a; reflexivity. Qed.
Theorem c77_shortrepr : forall r, shortrepr r = r /\ (length r <= 50)%nat \/
  (50 < length r)%nat /\ length (shortrepr r) = 49%nat /\ exists m, r = firstn 23 r ++ m ++ skipn (length r - 23) r /\ shortrepr r = firstn 23 r ++ L "..." ++ skipn (length r - 23) r.
Proof.
  intros r. unfold shortrepr. destruct (Nat.ltb_spec 50 (length r)) as [H|H]; [right|left; split; [reflexivity|lia]].
  split; [exact H|]. split.
  - rewrite !app_length, firstn_length, skipn_length. change (length (L "...")) with 3%nat. lia.
  - exists (firstn (length r - 46) (skipn 23 r)). split; [|reflexivity].
    rewrite <- (firstn_skipn 23 r) at 1. f_equal.
    rewrite <- (firstn_skipn (length r - 46) (skipn 23 r)) at 1. f_equal.
    rewrite skipn_skipn'. f_equal. lia.
Qed.
(** after the loss of its newest block file a log begins anew *)
Theorem c77_restart : store_laws -> forall h n s' c e, no_collision (files_after h) -> f_heads s' = f_heads (files_after h) ->
  hd_error (log_files (files_after h) n) = Some c -> dget (f_blocks s') c = None ->
  let s2 := fst (frun (append_entry n e) s') in
  snd (frun (append_entry n e) s') = Ok tt /\ reads s2 n = Ok [Block (clock (f_tick s')) e].
Proof.
  intros HL h n s' c e HN Hh Hc Hm. cbv zeta. pose proof (R_after h HL HN) as HR.
  destruct (chain_blocks_run _ _ n HL HR) as [bs [B1 [B2 [B3 [d [Hd Hs]]]]]]. rewrite (log_files_run _ _ n bs HL HR B1) in Hc.
  destruct (dget d n) as [cid|] eqn:En; [|destruct Hs as [_ ->]; discriminate].
  destruct Hs as [Hne Hs]. apply spine_hd in Hs. rewrite Hc in Hs. injection Hs as <-.
  rewrite <- Hh in Hd.
  assert (Hrun : frun (append_entry n e) s' =
    let ser := dumps (block_data e None (clock (f_tick s'))) in
    (FState (Some (dumps (PyDict (dset d n (sha256 ser))))) (dset (dset (f_blocks s') (sha256 ser) []) (sha256 ser) ser)
       (f_rings s') (S (f_tick s')) (f_uuid s') (f_trace s') (ser :: f_written s'), Ok tt)).
  { cbv zeta. unfold append_entry, head_parent, frun. rewrite !run_bind. pose proof (getheads_run HL s' d Hd) as Hg. unfold frun in Hg. rewrite Hg, En, Hne.
    rewrite run_bind. pose proof (get_block_none s' c Hm) as Hb. unfold frun in Hb. rewrite Hb. cbn [run].
    unfold store_block. cbn [bind perform run fstep]. unfold upsert. rewrite run_bind.
    set (s1 := FState _ _ _ _ _ _ _). assert (Hd1 : heads_rel (f_heads s1) d) by exact Hd.
    pose proof (getheads_run HL s1 d Hd1) as Hg1. unfold frun in Hg1. rewrite Hg1. reflexivity. }
  rewrite Hrun. cbv zeta. cbn [fst snd]. split; [reflexivity|]. unfold reads, read_chain, frun.
  set (ser := dumps (block_data e None (clock (f_tick s')))). set (s2 := FState _ _ _ _ _ _ _). rewrite run_bind.
  assert (Hd2 : heads_rel (f_heads s2) (dset d n (sha256 ser))) by reflexivity.
  pose proof (getheads_run HL s2 _ Hd2) as Hg. unfold frun in Hg. rewrite Hg, dget_dset, text_eqb_refl.
  rewrite (proj2 (nonempty_true (sha256 ser)) (sha_nonempty HL ser)). rewrite run_bind. cbn [perform run fstep walk].
  rewrite run_bind. assert (Hb : dget (f_blocks s2) (sha256 ser) = Some (dumps (block_data e None (clock (f_tick s'))))).
  { cbn [s2 f_blocks]. rewrite dset_dset_get, text_eqb_refl. reflexivity. }
  pose proof (get_block_run HL s2 _ e None _ Hb) as H1. unfold frun in H1. rewrite H1. cbn [fb_tag fb_args fb_parent fb_time]. rewrite entry_of_args. reflexivity.
Qed.
End ReaderProofs.
