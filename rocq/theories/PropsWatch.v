(** C85: a process that reads while others write. *)
From Verif Require Import Base PyStr Env Prog Chain Gpg Mime States Recommendation Account Cmdline Bot Fs Api Refine Spec StoreFacts Crash Conc StoreProofs WatchSpec WatchProofs Toy Demo PropsStore.

(** A program that only reads logs, and runs while any other calls that do not delete the whole
    store are working on the same files: its answer is the one it would have got if every one of
    its reads had taken no time, the others working between the reads.  In particular it never
    sees a log half written. *)
Theorem C85_every_read_is_of_one_moment : forall (E : Env), store_laws -> clock_injective -> load [] = None ->
  forall h cs (p : prog cop outcome) r ps' s', allowed reads_only p -> (forall c, In c cs -> deletes_all c = false) ->
  interleave (on_files p :: map (fun c => on_files (exec c)) cs) (files_after h) (WatchSpec.ended r :: ps') s' -> no_collision s' ->
  sees (map (fun c => on_files (exec c)) cs) (files_after h) p r.
Proof. exact @c85_calls. Qed.
Print Assumptions C85_every_read_is_of_one_moment.

(** What is said about one log (a peer's state, the own settings) was true at some moment: there
    is a moment at which reading the log in peace would have given the same. *)
Theorem C85_one_log_at_one_moment : forall (E : Env), store_laws -> clock_injective -> load [] = None ->
  forall h cs n (f : list block -> result outcome) r ps' s', (forall c, In c cs -> deletes_all c = false) ->
  interleave (on_files (l <- perform (CRead n) ;; lift (f l)) :: map (fun c => on_files (exec c)) cs) (files_after h)
    (WatchSpec.ended r :: ps') s' -> no_collision s' ->
  exists s1, at_some_time (map (fun c => on_files (exec c)) cs) (files_after h) s1 /\
    r = (match reads s1 n with Ok l => f l | Err e => Err e end).
Proof. exact @c85_one_log. Qed.
Print Assumptions C85_one_log_at_one_moment.

(** The writing processes are not disturbed by the reader: without it they could have done
    exactly the same. *)
Theorem C85_reader_leaves_no_trace : forall (E : Env), store_laws -> clock_injective -> load [] = None ->
  forall h cs (p : prog cop outcome) r ps' s', allowed reads_only p -> (forall c, In c cs -> deletes_all c = false) ->
  interleave (on_files p :: map (fun c => on_files (exec c)) cs) (files_after h) (WatchSpec.ended r :: ps') s' -> no_collision s' ->
  interleave (map (fun c => on_files (exec c)) cs) (files_after h) ps' s'.
Proof. exact @c85_no_trace. Qed.
Print Assumptions C85_reader_leaves_no_trace.

(** asking for the recommendation only reads *)
Theorem C85_recommendation_only_reads : forall (E : Env) acct addrs reply from,
  allowed reads_only (recommend acct addrs reply from).
Proof. exact @recommend_reads. Qed.
Print Assumptions C85_recommendation_only_reads.

#[local] Existing Instance E0.
Definition watch_before : list api :=
  [add_a; AMod (L "a") None None None (Some (L "mutual")); in_a (ac_mail bob alice (L "1000") (L "<1>") (L "mutual") keyB)].
Definition watch_mails : api :=
  ACliScandir false [(0%Z, ac_mail bob alice (L "2000") (L "<2>") (L "nopreference") keyB);
                     (0%Z, ac_mail carol alice (L "3000") (L "<3>") (L "mutual") keyC)].
Definition watch_asks {E : Env} : prog cop outcome :=
  r <- recommend (L "a") [Some bob; Some carol] false None ;; Ret (OOptText r).
Definition watch_race : list (prog fop outcome) * fstate :=
  schedule (repeat 0%nat 6 ++ repeat 1%nat 80 ++ repeat 0%nat 6) [on_files watch_asks; on_files (exec watch_mails)] (files_after watch_before).

(** beside the theorems: the hypotheses hold of this run, in which the reader ends with the
    answer "encrypt" while the other process has worked in the middle of its reading *)
Example C85_example :
  @store_laws E0 /\ @clock_injective E0 /\ @load E0 [] = None /\ allowed reads_only watch_asks /\ deletes_all watch_mails = false /\
  interleave [on_files watch_asks; on_files (exec watch_mails)] (files_after watch_before) (fst watch_race) (snd watch_race) /\
  fst watch_race = [WatchSpec.ended (Ok (OOptText (Some (L "encrypt")))); Ret (OScan [ScanFound true; ScanFound true])] /\ no_collision (snd watch_race).
Proof.
  split; [apply toy_store_laws|]. split; [exact E0_clock|]. split; [vm_compute; reflexivity|].
  split; [apply allowed_bind; [apply recommend_reads|constructor]|]. split; [reflexivity|].
  split; [apply schedule_interleave|]. split; [vm_compute; reflexivity|]. apply toy_no_collision.
Qed.

(** Reads of several logs are not of one moment: a recommendation for two recipients can be
    "encrypt" although there is no moment at which it was "encrypt".  Here bob withdraws the
    wish to encrypt, and only after that carol states it. *)
Definition not_encrypt (s : fstate) : bool :=
  match snd (frun (on_files watch_asks) s) with Ok (OOptText (Some t)) => negb (text_eqb t (L "encrypt")) | _ => true end.
Theorem C85_whole_answer_of_one_moment_refuted : exists (E : Env) h c acct addrs r ps' s',
  store_laws /\ clock_injective /\ load [] = None /\ no_collision s' /\ deletes_all c = false /\
  (let asks := r <- recommend acct addrs false None ;; Ret (OOptText r) in
   interleave [on_files asks; on_files (exec c)] (files_after h) (WatchSpec.ended (Ok r) :: ps') s' /\
   forall s1, at_some_time [on_files (exec c)] (files_after h) s1 -> snd (frun (on_files asks) s1) <> Ok r).
Proof.
  exists E0, watch_before, watch_mails, (L "a"), [Some bob; Some carol], (OOptText (Some (L "encrypt"))), (tl (fst watch_race)), (snd watch_race).
  destruct C85_example as [H1 [H2 [H3 [_ [H4 [H5 [H6 H7]]]]]]]. split; [exact H1|]. split; [exact H2|]. split; [exact H3|]. split; [exact H7|]. split; [exact H4|]. cbv zeta. fold (@watch_asks E0). split.
  - rewrite H6 in H5 |- *. exact H5.
  - intros s1 Hs He.
    assert (Ha : not_encrypt s1 = true).
    { apply (always_sound not_encrypt 200 (on_files (exec watch_mails)) (files_after watch_before) s1); [vm_compute; reflexivity|exact Hs]. }
    unfold not_encrypt in Ha. rewrite He in Ha. vm_compute in Ha. discriminate Ha.
Qed.
Print Assumptions C85_whole_answer_of_one_moment_refuted.

(** The assumption that nobody deletes the store is needed: while another process deletes it, a
    reader can get the newest entry alone of a log of two.  Here a peer whose newest mail had no
    key appears to have none at all, which was not so at any moment. *)
Definition watch_before2 : list api :=
  [add_a; in_a (ac_mail bob alice (L "1000") (L "<1>") (L "mutual") keyB); in_a (mail bob alice (L "2000") (L "<2>") [])].
Definition watch_looks {E : Env} : prog cop outcome :=
  l <- perform (CRead (peerstate_chain (L "a") bob)) ;; lift (Ok (OPeer (view_of (peerstate_chain (L "a") bob) l))).
Definition seen_without_key (o : outcome) : bool :=
  match o with OPeer v => Z.ltb 0 (pv_last_seen v) && negb (nonempty (pv_keydata v)) | _ => false end.
Definition watch_race2 : list (prog fop outcome) * fstate :=
  schedule (repeat 0%nat 3 ++ repeat 1%nat 20 ++ repeat 0%nat 6) [on_files watch_looks; on_files (exec ARemove)] (files_after watch_before2).
Definition watch_answer2 : outcome := match fst watch_race2 with Ret o :: _ => o | _ => ONone end.
Definition not_without_key (s : fstate) : bool :=
  match snd (frun (on_files watch_looks) s) with Ok o => negb (seen_without_key o) | _ => true end.
Theorem C85_while_the_store_is_deleted_refuted : exists (E : Env) h n (f : list block -> result outcome) r ps' s',
  store_laws /\ clock_injective /\ load [] = None /\ no_collision s' /\
  (let looks := l <- perform (CRead n) ;; lift (f l) in
   interleave [on_files looks; on_files (exec ARemove)] (files_after h) (WatchSpec.ended (Ok r) :: ps') s' /\
   forall s1, at_some_time [on_files (exec ARemove)] (files_after h) s1 -> snd (frun (on_files looks) s1) <> Ok r).
Proof.
  exists E0, watch_before2, (peerstate_chain (L "a") bob), (fun l => Ok (OPeer (view_of (peerstate_chain (L "a") bob) l))),
    watch_answer2, (tl (fst watch_race2)), (snd watch_race2).
  split; [apply toy_store_laws|]. split; [exact E0_clock|]. split; [vm_compute; reflexivity|]. split; [apply toy_no_collision|].
  cbv zeta. fold (@watch_looks E0). split.
  - assert (H : interleave [on_files watch_looks; on_files (exec ARemove)] (files_after watch_before2) (fst watch_race2) (snd watch_race2)) by (unfold watch_race2; exact (schedule_interleave _ _ _)).
    assert (Hf : fst watch_race2 = WatchSpec.ended (Ok watch_answer2) :: tl (fst watch_race2)) by (vm_compute; reflexivity).
    rewrite Hf in H. exact H.
  - intros s1 Hs He.
    assert (Ha : not_without_key s1 = true).
    { apply (always_sound not_without_key 200 (on_files (exec ARemove)) (files_after watch_before2) s1); [vm_compute; reflexivity|exact Hs]. }
    unfold not_without_key in Ha. rewrite He in Ha. vm_compute in Ha. discriminate Ha.
Qed.
Print Assumptions C85_while_the_store_is_deleted_refuted.
