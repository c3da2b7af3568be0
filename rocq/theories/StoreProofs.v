(** Proofs of the properties of the store (C01-C07). *)
From Verif Require Import Base PyStr Env Prog Chain Gpg Mime States Recommendation Account Cmdline Bot Fs Api Refine Steps StepFacts ApiScope Spec Obs StoreFacts Crash Conc Toy.

Section StoreProofs.
Context {E : Env}.

Lemma fsession_one c s : fst (fsession [c] s) = fst (frun (on_files (exec c)) s).
Proof. cbn [fsession]. destruct (frun _ s); reflexivity. Qed.
Lemma fsession_app h1 h2 s : fst (fsession (h1 ++ h2) s) = fst (fsession h2 (fst (fsession h1 s))).
Proof.
  revert s; induction h1 as [|c h1 IH]; intros s; [reflexivity|]. cbn [app fsession].
  destruct (frun (on_files (exec c)) s) as [s1 r]. specialize (IH s1).
  destruct (fsession (h1 ++ h2) s1), (fsession h1 s1). cbn [fst] in *. exact IH.
Qed.

Lemma R_after h : store_laws -> no_collision (files_after h) -> R (files_after h) (fst (session h ast0)).
Proof. intros HL HN. apply (refine_session HL h fs0 ast0 R_init HN). Qed.

(** ** C01 *)
Lemma c01_session : store_laws -> forall h, no_collision (files_after h) ->
  snd (fsession h fs0) = snd (session h ast0).
Proof. intros HL h HN. apply (refine_session HL h fs0 ast0 R_init HN). Qed.

Lemma c01_logs : store_laws -> forall h n, no_collision (files_after h) ->
  frun (read_chain n) (files_after h) = (files_after h, Ok (spec_log n (session_events h ast0) [])).
Proof.
  intros HL h n HN. rewrite (read_chain_run HL _ _ n (R_after h HL HN)), session_log. reflexivity.
Qed.

Lemma c01_append : store_laws -> forall h n e, no_collision (fst (frun (append_entry n e) (files_after h))) ->
  let s := files_after h in let s' := fst (frun (append_entry n e) s) in
  snd (frun (append_entry n e) s) = Ok tt /\
  forall m l, snd (frun (read_chain m) s) = Ok l ->
    snd (frun (read_chain m) s') = Ok (if text_eqb m n then Block (clock (f_tick s)) e :: l else l).
Proof.
  intros HL h n e HN s s'.
  assert (HN0 : no_collision s).
  { eapply no_collision_incl; [|exact HN]. apply frun_written. }
  pose proof (R_after h HL HN0) as HR.
  destruct (append_sim HL s (fst (session h ast0)) n e s' (snd (frun (append_entry n e) s)) HR) as [H1 H2].
  { unfold s'. destruct (frun (append_entry n e) s); reflexivity. }
  { exact HN. }
  split; [exact H1|]. intros m l. fold s in HR. rewrite (read_chain_run HL _ _ m HR), (read_chain_run HL _ _ m H2).
  cbn [snd]. intros [= <-]. f_equal. unfold alog. cbn [astep fst a_logs]. rewrite dget_dset.
  rewrite (r_tick _ _ HR).
  destruct (text_eqb_spec m n) as [->|]; reflexivity.
Qed.

(** ** C02 *)
Lemma intact_after h : (forall c, In c h -> deletes_all c = false) -> forall s, intact s ->
  no_collision (fst (fsession h s)) -> intact (fst (fsession h s)) /\ same_blocks s (fst (fsession h s)).
Proof.
  induction h as [|c h IH]; intros Hd s Hi HN; [split; [exact Hi|intros ? ? H; exact H]|].
  cbn [fsession] in *.
  pose proof (prog_blocks _ (exec c)) as Hp.
  assert (Ha : allowed no_rmtree (exec c)).
  { apply exec_no_rmtree. specialize (Hd c (or_introl eq_refl)). destruct c; auto; discriminate. }
  specialize (Hp Ha s).
  destruct (frun (on_files (exec c)) s) as [s1 r1] eqn:E1. cbn [fst] in *.
  pose proof (fsession_written h s1) as Hw.
  destruct (fsession h s1) as [s2 r2] eqn:E2. cbn [fst] in *.
  assert (HN1 : no_collision s1) by (eapply no_collision_incl; eauto).
  destruct (Hp HN1 Hi) as [H1 H2].
  specialize (IH (fun c' Hc' => Hd c' (or_intror Hc')) s1 H1). rewrite E2 in IH. cbn [fst] in IH.
  destruct (IH HN) as [H3 H4]. split; [exact H3|]. intros cid b Hb. apply H4, H2, Hb.
Qed.

Lemma rm_intact X (o : cop X) s : no_collision (fst (frun (impl o) s)) -> intact s -> intact (fst (frun (impl o) s)).
Proof.
  intros HN Hi. destruct o; try (apply impl_blocks; [exact I|exact HN|exact Hi]).
  intros cid b Hb. discriminate.
Qed.
Lemma prog_intact A (p : prog cop A) s : no_collision (fst (frun (on_files p) s)) -> intact s ->
  intact (fst (frun (on_files p) s)).
Proof.
  revert s; induction p as [a|e|X o k IH]; intros s HN Hi; try exact Hi.
  unfold on_files, frun in *. cbn [expand] in *. rewrite run_bind in *.
  pose proof (rm_intact X o s) as H. unfold frun in H.
  destruct (run (@fstep E) (impl o) s) as [s1 [x|x]]; cbn [fst] in *; [|auto].
  apply IH; [exact HN|]. apply H; [|exact Hi].
  eapply no_collision_incl; [|exact HN]. apply (frun_written _ (expand (@impl E) (k x)) s1).
Qed.
Lemma session_intact h s : no_collision (fst (fsession h s)) -> intact s -> intact (fst (fsession h s)).
Proof.
  revert s; induction h as [|c h IH]; intros s HN Hi; [exact Hi|]. cbn [fsession] in *.
  pose proof (prog_intact _ (exec c) s) as Hp.
  destruct (frun (on_files (exec c)) s) as [s1 r1] eqn:E1. cbn [fst] in *.
  pose proof (fsession_written h s1) as Hw. specialize (IH s1).
  destruct (fsession h s1) as [s2 r2] eqn:E2. cbn [fst] in *.
  apply IH; [exact HN|]. apply Hp; [|exact Hi]. eapply no_collision_incl; eauto.
Qed.
Lemma intact_init : intact fs0. Proof. intros cid b H; discriminate. Qed.

Lemma c02 : forall h1 h2, (forall c, In c h2 -> deletes_all c = false) -> no_collision (files_after (h1 ++ h2)) ->
  forall cid b, dget (f_blocks (files_after h1)) cid = Some b -> dget (f_blocks (files_after (h1 ++ h2))) cid = Some b.
Proof.
  intros h1 h2 Hd HN. unfold files_after in *. rewrite fsession_app in *.
  apply intact_after; auto. apply session_intact; [|apply intact_init].
  eapply no_collision_incl; [|exact HN]. apply fsession_written.
Qed.

(** ** C03, C04 *)
Lemma reads_R s a : store_laws -> R s a -> forall n, reads s n = Ok (alog a n).
Proof. intros HL HR n. unfold reads. rewrite (read_chain_run HL s a n HR). reflexivity. Qed.

Lemma c03 : store_laws -> clock_injective -> forall h n e s',
  crash HUntouched (append_entry n e) (files_after h) HUntouched s' -> no_collision s' ->
  forall m, reads s' m = reads (files_after h) m.
Proof.
  intros HL HI h n e s' Hc HN m.
  assert (HN0 : no_collision (files_after h)).
  { eapply no_collision_incl; [|exact HN]. eapply crash_written; [exact Hc|discriminate]. }
  pose proof (R_after h HL HN0) as HR.
  assert (H1 : HUntouched <> HOpen) by discriminate.
  destruct (append_crash HL HI n e _ _ _ _ _ HR (session_dated h fs0 dated_init) H1 Hc HN H1) as [[_ [H|H]]|[H _]];
    [| |discriminate]; rewrite (reads_R _ _ HL H), (reads_R _ _ HL HR); reflexivity.
Qed.

Lemma c04 : store_laws -> clock_injective -> forall h n e ph s',
  crash HUntouched (append_entry n e) (files_after h) ph s' -> ph <> HOpen -> no_collision s' ->
  (forall m, reads s' m = reads (files_after h) m) \/
  (forall m, reads s' m = reads (fst (frun (append_entry n e) (files_after h))) m).
Proof.
  intros HL HI h n e ph s' Hc Hph HN.
  assert (HN0 : no_collision (files_after h)).
  { eapply no_collision_incl; [|exact HN]. eapply crash_written; [exact Hc|exact Hph]. }
  pose proof (R_after h HL HN0) as HR. set (s := files_after h) in *.
  assert (H1 : HUntouched <> HOpen) by discriminate.
  destruct (append_crash HL HI n e _ _ _ _ _ HR (session_dated h fs0 dated_init) H1 Hc HN Hph) as [[_ [H|H]]|[_ [_ Hs']]].
  - left. intros m. rewrite (reads_R _ _ HL H), (reads_R _ _ HL HR); reflexivity.
  - left. intros m. rewrite (reads_R _ _ HL H), (reads_R _ _ HL HR); reflexivity.
  - right. intros m. rewrite Hs'. reflexivity.
Qed.

Lemma c03_any : store_laws -> clock_injective -> forall h c ph s',
  crash HUntouched (on_files (exec c)) (files_after h) ph s' -> ph <> HOpen -> no_collision s' ->
  exists a, (passes (exec c) (fst (session h ast0)) a \/
             exists a0, passes (exec c) (fst (session h ast0)) a0 /\ a = ticked a0) /\
    (forall n, reads s' n = Ok (alog a n)) /\
    (forall h2, no_collision (fst (fsession h2 s')) -> snd (fsession h2 s') = snd (session h2 a)).
Proof.
  intros HL HI h c ph s' Hc Hph HN.
  assert (HN0 : no_collision (files_after h)).
  { eapply no_collision_incl; [|exact HN]. eapply crash_written; [exact Hc|exact Hph]. }
  pose proof (R_after h HL HN0) as HR.
  assert (H1 : HUntouched <> HOpen) by discriminate.
  destruct (crash_recovery HL HI _ (exec c) _ _ _ _ _ HR (session_dated h fs0 dated_init) H1 Hc HN Hph) as [a [Ha [Hr|Hr]]].
  - exists a. split; [auto|]. split; [apply (reads_R _ _ HL Hr)|].
    intros h2 H2. apply (refine_session HL h2 s' a Hr H2).
  - exists (ticked a). split; [eauto|]. split; [apply (reads_R _ _ HL Hr)|].
    intros h2 H2. apply (refine_session HL h2 s' _ Hr H2).
Qed.

(** ** C05 *)
Lemma c05_integrity : store_laws -> load [] = None -> forall (P : text -> entry -> Prop) A (qs : list (prog cop A)) h ps' s',
  (forall n, Forall (fun b => P n (bl_entry b)) (spec_log n (session_events h ast0) [])) ->
  Forall (respects P) qs -> interleave (map on_files qs) (files_after h) ps' s' -> no_collision s' ->
  forall n l, reads s' n = Ok l -> Forall (fun b => P n (bl_entry b)) l.
Proof.
  intros HL HE P A qs h ps' s' Hp Hq Hi HN n l Hr.
  assert (HN0 : no_collision (files_after h)).
  { eapply no_collision_incl; [|exact HN]. eapply interleave_written; exact Hi. }
  eapply (concurrent_integrity HL HE P qs); eauto.
  eapply (R_Inv P _ _ (R_after h HL HN0)).
  - apply session_intact; [exact HN0|apply intact_init].
  - intros m. rewrite session_log. apply Hp.
Qed.

Lemma c05_appends : store_laws -> load [] = None -> forall h (work : list (text * entry)) ps' s',
  interleave (map (fun w => on_files (perform (CAppend (fst w) (snd w)))) work) (files_after h) ps' s' -> no_collision s' ->
  forall n l, reads s' n = Ok l ->
  forall b, In b l -> In (n, bl_entry b) work \/ exists l0, reads (files_after h) n = Ok l0 /\ In (bl_entry b) (map bl_entry l0).
Proof.
  intros HL HE h work ps' s' Hi HN n l Hr b Hb.
  assert (HN0 : no_collision (files_after h)).
  { eapply no_collision_incl; [|exact HN]. eapply interleave_written; exact Hi. }
  set (P := fun n e => In (n, e) work \/ In e (map bl_entry (spec_log n (session_events h ast0) []))).
  assert (Hl : Forall (fun b => P n (bl_entry b)) l).
  { apply (c05_integrity HL HE P unit (map (fun w => perform (CAppend (fst w) (snd w))) work) h ps' s'); auto.
    - intros m. apply Forall_forall. intros b' Hb'. right. apply in_map, Hb'.
    - apply Forall_map, Forall_forall. intros [m e] Hin. split; [left; exact Hin|]. intros; exact I.
    - rewrite map_map. exact Hi. }
  rewrite Forall_forall in Hl. destruct (Hl b Hb) as [H|H]; [left; exact H|right].
  exists (spec_log n (session_events h ast0) []). split; [|exact H].
  unfold reads. rewrite c01_logs; auto.
Qed.

(** ** Dying between opening and writing the heads file *)
Lemma crash_bind_r A B (p : prog fop A) (f : A -> prog fop B) ph s s1 x ph' s' :
  frun p s = (s1, Ok x) -> crash (phases ph p s) (f x) s1 ph' s' -> crash ph (bind p f) s ph' s'.
Proof.
  revert ph s. induction p as [a|e|X o k IH]; intros ph s Hr Hc.
  - injection Hr as <- <-. exact Hc.
  - discriminate.
  - cbn [bind crash]. right; right. apply IH.
    + unfold frun in *. cbn [run] in Hr. destruct (fstep o s); exact Hr.
    + exact Hc.
Qed.

Lemma c04_window : store_laws -> load [] = None -> forall h n e, no_collision (files_after h) ->
  exists s', crash HUntouched (append_entry n e) (files_after h) HOpen s' /\
    forall m, reads s' m = Err LoadError.
Proof.
  intros HL HE h n e HN. pose proof (R_after h HL HN) as HR. set (s := files_after h) in *.
  destruct (R_heads_of _ _ HR) as [d Hd].
  destruct (head_parent_run HL s _ n d HR Hd) as [p [Hp _]].
  set (ser := dumps (block_data e p (clock (f_tick s)))).
  set (s1 := FState (f_heads s) (dset (dset (f_blocks s) (sha256 ser) []) (sha256 ser) ser)
              (f_rings s) (S (f_tick s)) (f_uuid s) (f_trace s) (ser :: f_written s)).
  exists (set_heads s1 (Some [])). split.
  - unfold append_entry. eapply crash_bind_r; [exact Hp|]. rewrite (phases_ro _ _ _ _ (ro_head_parent n)).
    unfold store_block. cbn [bind perform crash torn phase1 fstep fst snd]. right; right. right; right. right; right.
    unfold upsert. eapply crash_bind_r.
    + apply (getheads_run HL s1 d). exact Hd.
    + rewrite (phases_ro _ _ _ _ ro_getheads). right; right. left. split; reflexivity.
  - intros m. unfold reads, read_chain, getheads, frun. cbn [bind perform run fstep set_heads f_heads].
    rewrite HE. reflexivity.
Qed.

(** ** C06 *)
Lemma read_head_file s n : reads s n =
  match f_heads s with
  | None => Ok []
  | Some b =>
    match load b with
    | Some (PyDict d) => match dget d n with
                         | Some cid => if nonempty cid then snd (frun (walk (S (length (f_blocks s))) cid) s) else Ok []
                         | None => Ok [] end
    | Some _ => Err AttributeError
    | None => Err LoadError
    end
  end.
Proof.
  unfold reads, read_chain, getheads, frun. cbn [bind perform run fstep].
  destruct (f_heads s) as [b|]; [|reflexivity].
  destruct (load b) as [[|d]|]; try reflexivity.
  cbn [bind]. destruct (dget d n) as [cid|]; [|reflexivity]. destruct (nonempty cid); reflexivity.
Qed.

Lemma c06_forged : store_laws -> forall s n cid, head_file s n = Some cid -> cid <> [] ->
  forall e t, reads (overwrite s cid (dumps (block_data e None t))) n = Ok [Block t e].
Proof.
  intros HL s n cid Hh Hne e t. rewrite read_head_file. unfold head_file in Hh. cbn [overwrite f_heads].
  destruct (f_heads s) as [b|]; [|discriminate]. destruct (load b) as [[|d]|]; try discriminate.
  rewrite Hh. apply nonempty_true in Hne. rewrite Hne.
  set (s' := overwrite _ _ _). cbn [walk]. unfold frun. rewrite run_bind.
  assert (Hg : dget (f_blocks s') cid = Some (dumps (block_data e None t))).
  { cbn. rewrite dget_dset, text_eqb_refl. reflexivity. }
  pose proof (get_block_run HL s' cid e None t Hg) as H. unfold frun in H. rewrite H.
  cbn [fb_tag fb_args fb_parent fb_time]. rewrite entry_of_args. reflexivity.
Qed.

Lemma c06_partial s n cid b : head_file s n = Some cid -> cid <> [] -> load b = None ->
  reads (overwrite s cid b) n = Err LoadError.
Proof.
  intros Hh Hne Hb. rewrite read_head_file. unfold head_file in Hh. cbn [overwrite f_heads].
  destruct (f_heads s) as [hb|]; [|discriminate]. destruct (load hb) as [[|d]|]; try discriminate.
  rewrite Hh. apply nonempty_true in Hne. rewrite Hne.
  cbn [walk]. unfold frun, get_block. cbn [bind perform run fstep f_blocks overwrite].
  rewrite dget_dset, text_eqb_refl, Hb. reflexivity.
Qed.

(** ** C07 *)
Lemma c07 a b x y : isalnum a = true -> isalnum b = true ->
  (peer_chain a x = peer_chain b y -> a = b /\ x = y) /\
  (own_chain a = own_chain b -> a = b) /\ (oob_chain a = oob_chain b -> a = b) /\
  peer_chain a x <> own_chain b /\ peer_chain a x <> oob_chain b /\ peer_chain a x <> mgr_chain /\
  own_chain a <> oob_chain b /\ own_chain a <> mgr_chain /\ oob_chain a <> mgr_chain.
Proof.
  intros Ha Hb. split; [apply peer_chain_inj; auto|]. split; [apply own_chain_inj|]. split; [apply oob_chain_inj|].
  split; [intros H; symmetry in H; exact (own_peer _ _ _ H)|].
  split; [intros H; symmetry in H; exact (oob_peer _ _ _ H)|].
  split; [apply peer_mgr|]. split; [apply own_oob|]. split; [apply own_mgr|apply oob_mgr].
Qed.

End StoreProofs.
