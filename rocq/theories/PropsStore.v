(** C01-C07: the store.  Statements only; proofs are in StoreProofs.v.
    [session h] runs API calls on plain in-memory logs, [fsession h] the same calls on files. *)
From Verif Require Import Base PyStr Env Prog Chain Gpg Mime States Account Fs Api Refine Spec StoreFacts Crash Conc StoreProofs Toy Demo.
#[local] Existing Instance E0.   (* for the examples *)

(** ** C01 *)
(** Every call of every session answers on files as on plain in-memory logs. *)
Theorem C01_sessions_on_files_answer_as_on_lists : forall (E : Env), store_laws ->
  forall h, no_collision (files_after h) -> snd (fsession h fs0) = snd (session h ast0).
Proof. exact @c01_session. Qed.
Print Assumptions C01_sessions_on_files_answer_as_on_lists.

(** Reading a log from the files yields exactly the entries appended to it, newest first. *)
Theorem C01_logs_hold_exactly_what_was_appended : forall (E : Env), store_laws ->
  forall h n, no_collision (files_after h) ->
  frun (read_chain n) (files_after h) = (files_after h, Ok (spec_log n (session_events h ast0) [])).
Proof. exact @c01_logs. Qed.
Print Assumptions C01_logs_hold_exactly_what_was_appended.

(** Appending prepends one entry to the log read and changes no other log. *)
Theorem C01_append_adds_one_entry_to_one_log : forall (E : Env), store_laws ->
  forall h n e, no_collision (fst (frun (append_entry n e) (files_after h))) ->
  let s := files_after h in let s' := fst (frun (append_entry n e) s) in
  snd (frun (append_entry n e) s) = Ok tt /\
  forall m l, snd (frun (read_chain m) s) = Ok l ->
    snd (frun (read_chain m) s') = Ok (if text_eqb m n then Block (clock (f_tick s)) e :: l else l).
Proof. exact @c01_append. Qed.
Print Assumptions C01_append_adds_one_entry_to_one_log.

Example C01_example : @store_laws E0 /\ @no_collision E0 (@files_after E0 demo) /\
  option_map (@length block) (match @reads E0 (@files_after E0 demo) (L "peer:a:bob@b.org") with Ok l => Some l | _ => None end) = Some 2 /\
  forallb (fun r => match r with Ok _ => true | Err _ => false end) (snd (@fsession E0 demo (@fs0 E0))) = true.
Proof. split; [apply toy_store_laws|]. split; [apply toy_no_collision|]. split; vm_compute; reflexivity. Qed.

(** ** C02 *)
Theorem C02_block_files_never_change : forall (E : Env) h1 h2,
  (forall c, In c h2 -> deletes_all c = false) -> no_collision (files_after (h1 ++ h2)) ->
  forall cid b, dget (f_blocks (files_after h1)) cid = Some b ->
                dget (f_blocks (files_after (h1 ++ h2))) cid = Some b.
Proof. exact @c02. Qed.
Print Assumptions C02_block_files_never_change.

(** deleting the account keeps the blocks, although no log leads to them any more *)
Example C02_example : let s1 := @files_after E0 demo in let s2 := @files_after E0 (demo ++ [ADel (L "a")]) in
  deletes_all (ADel (L "a")) = false /\ length (f_blocks s1) = 8 /\
  map fst (f_blocks s2) = map fst (f_blocks s1) /\ reads s2 (L "peer:a:bob@b.org") = Ok [].
Proof. vm_compute. repeat split; reflexivity. Qed.

(** ** C03 *)
Theorem C03_crash_before_heads_changes_nothing : forall (E : Env), store_laws -> clock_injective ->
  forall h n e s', crash HUntouched (append_entry n e) (files_after h) HUntouched s' -> no_collision s' ->
  forall m, reads s' m = reads (files_after h) m.
Proof. exact @c03. Qed.
Print Assumptions C03_crash_before_heads_changes_nothing.

(** Any call of any session, killed at any moment except while the heads file is open: all
    logs, and all answers of all later sessions, are those of a state the call passes through. *)
Theorem C03_crash_of_any_call : forall (E : Env), store_laws -> clock_injective ->
  forall h c ph s', crash HUntouched (on_files (exec c)) (files_after h) ph s' -> ph <> HOpen -> no_collision s' ->
  exists a, (passes (exec c) (fst (session h ast0)) a \/
             exists a0, passes (exec c) (fst (session h ast0)) a0 /\ a = ticked a0) /\
    (forall n, reads s' n = Ok (alog a n)) /\
    (forall h2, no_collision (fst (fsession h2 s')) -> snd (fsession h2 s') = snd (session h2 a)).
Proof. exact @c03_any. Qed.
Print Assumptions C03_crash_of_any_call.

Definition peer_a_bob : text := L "peer:a:bob@b.org".
Definition some_entry : entry := EMsg (MsgEntry (L "<9>") 0 (L "nopreference") [] []).
(** dying after 4 of the operations of an append: the new block file exists, but is empty *)
Definition dying (k : nat) : hphase * fstate :=
  after_ops k HUntouched (append_entry peer_a_bob some_entry) (files_after demo).
Example C03_example : @store_laws E0 /\ @clock_injective E0 /\
  crash HUntouched (append_entry peer_a_bob some_entry) (files_after demo) HUntouched (snd (dying 4)) /\
  length (f_blocks (snd (dying 4))) = S (length (f_blocks (files_after demo))) /\
  snd (last (f_blocks (snd (dying 4))) ([], [1%N])) = [].
Proof.
  split; [apply toy_store_laws|]. split; [exact E0_clock|].
  split; [apply after_ops_crash_at; vm_compute; reflexivity|]. vm_compute. split; reflexivity.
Qed.

(** With a clock that can return the same value twice the property fails: two logs can share
    a block file, and dying while it is written a second time destroys the first log. *)
Definition E_stuck : Env := toy (fun _ => 1000000 * sec)%Z.
Definition bob_mail : msg := ac_mail bob alice (L "1000") (L "<1>") (L "mutual") keyB.
Definition bob_entry : entry := EMsg (MsgEntry (L "<1>") (1000 * sec) (L "mutual") keyB (skipn 3 keyB)).
Theorem C03_needs_a_moving_clock_refuted : exists (E : Env) h n e s' m,
  store_laws /\ crash HUntouched (append_entry n e) (files_after h) HUntouched s' /\ no_collision s' /\
  reads s' m = Err LoadError /\ reads (files_after h) m <> Err LoadError.
Proof.
  exists E_stuck, [add_a; add_b; in_a bob_mail], (L "peer:b:bob@b.org"), bob_entry.
  exists (snd (after_ops 3 HUntouched (append_entry (L "peer:b:bob@b.org") bob_entry)
               (@files_after E_stuck [add_a; add_b; in_a bob_mail]))), peer_a_bob.
  split; [apply toy_store_laws|]. split.
  - apply after_ops_crash_at. vm_compute. reflexivity.
  - split; [apply toy_no_collision|]. split; vm_compute; [reflexivity|discriminate].
Qed.
Print Assumptions C03_needs_a_moving_clock_refuted.

(** ** C04: false.  The full statement would be [C04_crash_leaves_old_or_new_partial] without
    the hypothesis [ph <> HOpen]. *)
Theorem C04_crash_leaves_old_or_new_partial : forall (E : Env), store_laws -> clock_injective ->
  forall h n e ph s', crash HUntouched (append_entry n e) (files_after h) ph s' -> ph <> HOpen -> no_collision s' ->
  (forall m, reads s' m = reads (files_after h) m) \/
  (forall m, reads s' m = reads (fst (frun (append_entry n e) (files_after h))) m).
Proof. exact @c04. Qed.
Print Assumptions C04_crash_leaves_old_or_new_partial.

(** Every append in every state has a moment at which dying makes every log unreadable. *)
Theorem C04_every_append_has_a_fatal_window : forall (E : Env), store_laws -> load [] = None ->
  forall h n e, no_collision (files_after h) ->
  exists s', crash HUntouched (append_entry n e) (files_after h) HOpen s' /\ forall m, reads s' m = Err LoadError.
Proof. exact @c04_window. Qed.
Print Assumptions C04_every_append_has_a_fatal_window.

Theorem C04_crash_leaves_old_or_new_refuted : exists (E : Env) h n e ph s',
  store_laws /\ clock_injective /\ no_collision (files_after h) /\
  crash HUntouched (append_entry n e) (files_after h) ph s' /\
  (exists m l, reads (files_after h) m = Ok l /\ l <> []) /\ forall m, reads s' m = Err LoadError.
Proof.
  destruct (@c04_window E0 (toy_store_laws _) eq_refl demo peer_a_bob some_entry (toy_no_collision _ _)) as [s' [H1 H2]].
  exists E0, demo, peer_a_bob, some_entry, HOpen, s'.
  split; [apply toy_store_laws|]. split; [exact E0_clock|]. split; [apply toy_no_collision|].
  split; [exact H1|]. split; [|exact H2]. exists peer_a_bob. eexists. split; [vm_compute; reflexivity|discriminate].
Qed.
Print Assumptions C04_crash_leaves_old_or_new_refuted.

Example C04_example : fst (dying 9) = HRewritten /\
  match reads (snd (dying 9)) peer_a_bob with Ok l => length l = 3 | _ => False end.
Proof. vm_compute. split; reflexivity. Qed.

(** ** C05: false.  Two processes that each process a mail both answer Ok, and the mail of
    the second one is not recorded. *)
Definition mail_c1 : api := in_a (ac_mail bob alice (L "1000") (L "<1>") (L "mutual") keyB).
Definition mail_c2 : api := in_a (ac_mail carol alice (L "1000") (L "<2>") (L "mutual") keyC).
Definition race : list (prog fop outcome) * fstate :=
  schedule (repeat 0 20 ++ repeat 1 60 ++ repeat 0 60)
    [on_files (exec mail_c1); on_files (exec mail_c2)] (files_after [add_a]).
Theorem C05_concurrent_updates_survive_refuted : exists (E : Env) h c1 c2 ps' s' n,
  store_laws /\ no_collision s' /\
  interleave [on_files (exec c1); on_files (exec c2)] (files_after h) ps' s' /\ forallb finished ps' = true /\
  (exists l, reads (files_after (h ++ [c1; c2])) n = Ok l /\ l <> []) /\ reads s' n = Ok [].
Proof.
  exists E0, [add_a], mail_c1, mail_c2, (fst race), (snd race), (L "peer:a:carol@c.org").
  split; [apply toy_store_laws|]. split; [apply toy_no_collision|]. split; [apply schedule_interleave|].
  split; [vm_compute; reflexivity|].
  split; [eexists; split; [vm_compute; reflexivity|discriminate]|]. vm_compute. reflexivity.
Qed.
Print Assumptions C05_concurrent_updates_survive_refuted.

(** What does hold: at every moment of every interleaving of any number of appending
    processes, a log that can be read contains only entries that it contained before or that
    one of the processes appends to it. *)
Theorem C05_readable_logs_contain_only_appended_entries_partial : forall (E : Env), store_laws -> load [] = None ->
  forall h (work : list (text * entry)) ps' s',
  interleave (map (fun w => on_files (perform (CAppend (fst w) (snd w)))) work) (files_after h) ps' s' ->
  no_collision s' ->
  forall n l, reads s' n = Ok l -> forall b, In b l ->
    In (n, bl_entry b) work \/
    exists l0, reads (files_after h) n = Ok l0 /\ In (bl_entry b) (map bl_entry l0).
Proof. exact @c05_appends. Qed.
Print Assumptions C05_readable_logs_contain_only_appended_entries_partial.

(** The same for arbitrary programs and any condition [P] on the entries of each log that all
    programs respect. *)
Theorem C05_interleavings_keep_log_conditions : forall (E : Env), store_laws -> load [] = None ->
  forall (P : text -> entry -> Prop) A (qs : list (prog cop A)) h ps' s',
  (forall n, Forall (fun b => P n (bl_entry b)) (spec_log n (session_events h ast0) [])) ->
  Forall (respects P) qs -> interleave (map on_files qs) (files_after h) ps' s' -> no_collision s' ->
  forall n l, reads s' n = Ok l -> Forall (fun b => P n (bl_entry b)) l.
Proof. exact @c05_integrity. Qed.
Print Assumptions C05_interleavings_keep_log_conditions.

Example C05_example : let w := [(peer_a_bob, some_entry); (L "peer:a:x", some_entry)] in
  let r := schedule [0;1;0;1;0;1;0;1;0;1;0;1;0;1;0;1] (map (fun w => on_files (perform (CAppend (fst w) (snd w)))) w) (@files_after E0 demo) in
  @interleave E0 _ (map (fun w => on_files (perform (CAppend (fst w) (snd w)))) w) (files_after demo) (fst r) (snd r) /\
  match reads (snd r) peer_a_bob with Ok l => length l = 3 | _ => False end /\
  match reads (snd r) (L "peer:a:x") with Ok l => length l = 0 | _ => False end.
Proof. cbv zeta. split; [apply schedule_interleave|]. vm_compute. split; reflexivity. Qed.

(** ** C06: false.  Whatever is written into the head block file of a log is believed. *)
Theorem C06_any_forged_head_block_is_accepted : forall (E : Env), store_laws ->
  forall s n cid, head_file s n = Some cid -> cid <> [] ->
  forall e t, reads (overwrite s cid (dumps (block_data e None t))) n = Ok [Block t e].
Proof. exact @c06_forged. Qed.
Print Assumptions C06_any_forged_head_block_is_accepted.

Theorem C06_tampering_is_detected_refuted : exists (E : Env) h n cid b l,
  store_laws /\ no_collision (files_after h) /\ head_file (files_after h) n = Some cid /\
  dget (f_blocks (files_after h)) cid <> Some b /\ sha256 b <> cid /\
  reads (overwrite (files_after h) cid b) n = Ok l /\ Ok l <> reads (files_after h) n.
Proof.
  exists E0, demo, peer_a_bob. eexists. exists (@dumps E0 (block_data some_entry None 7)), [Block 7 some_entry].
  split; [apply toy_store_laws|]. split; [apply toy_no_collision|].
  split; [vm_compute; reflexivity|]. split; [vm_compute; discriminate|]. split; [vm_compute; discriminate|].
  split; [|vm_compute; discriminate]. apply c06_forged; [apply toy_store_laws|vm_compute; reflexivity|discriminate].
Qed.
Print Assumptions C06_tampering_is_detected_refuted.

(** Only contents that do not deserialize are noticed. *)
Theorem C06_undecodable_head_block_is_noticed_partial : forall (E : Env) s n cid b,
  head_file s n = Some cid -> cid <> [] -> load b = None -> reads (overwrite s cid b) n = Err LoadError.
Proof. exact @c06_partial. Qed.
Print Assumptions C06_undecodable_head_block_is_noticed_partial.

Example C06_example : exists cid, @head_file E0 (@files_after E0 demo) peer_a_bob = Some cid /\ cid <> [] /\ @load E0 [7%N] = None.
Proof. eexists. split; [vm_compute; reflexivity|]. split; [discriminate|reflexivity]. Qed.

(** ** C07 *)
Theorem C07_logs_are_kept_apart : forall (E : Env) a b x y, isalnum a = true -> isalnum b = true ->
  (peer_chain a x = peer_chain b y -> a = b /\ x = y) /\
  (own_chain a = own_chain b -> a = b) /\ (oob_chain a = oob_chain b -> a = b) /\
  peer_chain a x <> own_chain b /\ peer_chain a x <> oob_chain b /\ peer_chain a x <> mgr_chain /\
  own_chain a <> oob_chain b /\ own_chain a <> mgr_chain /\ oob_chain a <> mgr_chain.
Proof. exact @c07. Qed.
Print Assumptions C07_logs_are_kept_apart.

(** the restriction to alphanumeric names is needed: with ':' in an account name logs collide *)
Example C07_example : @isalnum E0 (L "a1") = true /\
  peer_chain (L "a") (L "b:x") = peer_chain (L "a:b") (L "x") /\ @isalnum E0 (L "a:b") = false.
Proof. repeat split; reflexivity. Qed.
