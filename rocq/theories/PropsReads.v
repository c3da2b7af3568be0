(** C87: decisions that read the same log several times. *)
From Verif Require Import Base PyStr Env Prog Chain Gpg Mime States Recommendation Account Cmdline Bot Fs Api Steps Refine Spec StoreFacts Crash Conc StoreProofs WatchSpec WatchProofs Reads ReadsSpec ReadsProofs Toy Demo PropsStore.

(** Nobody else working: processing a mail, sending one, encrypting, decrypting, making the header,
    exporting, importing a key and asking for a recommendation do and answer the same whether each
    decision reads the log once, or anew for every property as the code does. *)
Theorem C87_alone : forall (E : Env) a,
  (forall m ign nodec, same (r_process_incoming a m ign nodec) (process_incoming a m ign nodec)) /\
  (forall m, same (r_process_outgoing a m) (process_outgoing a m)) /\
  (forall m to, same (r_encrypt_mime a m to) (encrypt_mime a m to)) /\
  (forall m, same (r_decrypt_mime a m) (decrypt_mime a m)) /\
  (forall x, same (r_make_ac_header a x) (make_ac_header a x)) /\
  (forall kh, same (r_export_public_key a kh) (export_public_key a kh)) /\
  same (r_export_secret_key a) (export_secret_key a) /\
  (forall addr kd pref, same (r_import_keydata_as_autocrypt a addr kd pref) (import_keydata_as_autocrypt a addr kd pref)) /\
  (forall addrs reply from, same (r_recommend a addrs reply from) (recommend a addrs reply from)) /\
  (forall peers, same (r_target_keyhandles peers) (target_keyhandles peers)).
Proof. exact @c87_alone. Qed.
Print Assumptions C87_alone.

(** While others work: if the logs asked for do not change during the run, the recommendation is the
    one of these logs, whatever else the others do. *)
Theorem C87_while_these_logs_stay : forall (E : Env), store_laws -> clock_injective -> load [] = None ->
  forall h cs acct addrs reply from a r ps' s', (forall c, In c cs -> deletes_all c = false) ->
  stay (map (fun c => on_files (exec c)) cs) (files_after h) (asked_log acct addrs) a ->
  interleave (on_files (x <- r_recommend acct addrs reply from ;; Ret (OOptText x)) :: map (fun c => on_files (exec c)) cs) (files_after h)
    (WatchSpec.ended r :: ps') s' -> no_collision s' ->
  r = snd (arun (x <- recommend acct addrs reply from ;; Ret (OOptText x)) a).
Proof. exact @c87_stay. Qed.
Print Assumptions C87_while_these_logs_stay.

(** In general: each read is of one moment. *)
Theorem C87_each_read_of_one_moment : forall (E : Env), store_laws -> clock_injective -> load [] = None ->
  forall h cs acct addrs reply from r ps' s', (forall c, In c cs -> deletes_all c = false) ->
  interleave (on_files (x <- r_recommend acct addrs reply from ;; Ret (OOptText x)) :: map (fun c => on_files (exec c)) cs) (files_after h)
    (WatchSpec.ended r :: ps') s' -> no_collision s' ->
  sees (map (fun c => on_files (exec c)) cs) (files_after h) (x <- r_recommend acct addrs reply from ;; Ret (OOptText x)) r.
Proof. exact @c87_recommend_sees. Qed.
Print Assumptions C87_each_read_of_one_moment.

(** If a recipient is recommended to be encrypted to, then each of the reasons was true in its turn:
    the own settings said "mutual", the peer had a direct key, the peer had a direct key with "mutual",
    the newest mail of the peer had a key. *)
Theorem C87_reasons_in_turn : forall (E : Env), store_laws -> clock_injective -> load [] = None ->
  forall h cs acct y ps' s', (forall c, In c cs -> deletes_all c = false) ->
  interleave (on_files (x <- r_recommend acct [y] false None ;; Ret (OOptText x)) :: map (fun c => on_files (exec c)) cs) (files_after h)
    (WatchSpec.ended (Ok (OOptText (Some (L "encrypt")))) :: ps') s' -> no_collision s' ->
  let n := peerstate_chain acct (parse_email_addr y) in
  in_turn (map (fun c => on_files (exec c)) cs) (files_after h)
    [(own_chain acct, own_mutual); (n, direct_key); (n, direct_mutual); (n, last_mail_with_key)].
Proof. exact @c87_pieces. Qed.
Print Assumptions C87_reasons_in_turn.

#[local] Existing Instance E0.
Definition turn_before : list api :=
  [add_a; AMod (L "a") None None None (Some (L "mutual")); in_a (ac_mail bob alice (L "1000") (L "<1>") (L "mutual") keyB);
   in_a (mail bob alice (L "2000") (L "<2>") [])].
Definition turn_mail : api := in_a (ac_mail bob alice (L "3000") (L "<3>") (L "nopreference") keyC).
Definition turn_asks {E : Env} : prog cop outcome := x <- r_recommend (L "a") [Some bob] false None ;; Ret (OOptText x).
Definition turn_race : list (prog fop outcome) * fstate :=
  schedule (repeat 0%nat 26 ++ repeat 1%nat 100 ++ repeat 0%nat 60) [on_files turn_asks; on_files (exec turn_mail)] (files_after turn_before).

(** beside the theorems: this run meets the hypotheses *)
Example C87_example :
  @store_laws E0 /\ @clock_injective E0 /\ @load E0 [] = None /\ deletes_all turn_mail = false /\
  interleave [on_files turn_asks; on_files (exec turn_mail)] (files_after turn_before) (fst turn_race) (snd turn_race) /\
  (exists p2, fst turn_race = [WatchSpec.ended (Ok (OOptText (Some (L "encrypt")))); Ret p2]) /\ no_collision (snd turn_race).
Proof.
  split; [apply toy_store_laws|]. split; [exact E0_clock|]. split; [vm_compute; reflexivity|]. split; [reflexivity|].
  split; [unfold turn_race; exact (schedule_interleave _ _ _)|]. split; [eexists; vm_compute; reflexivity|]. apply toy_no_collision.
Qed.
(** beside [C87_while_these_logs_stay]: no log changes while nobody else works *)
Example C87_example_stay : @stay E0 outcome [] (files_after [add_a]) (asked_log (L "a") [Some bob]) (after ast0 add_a).
Proof.
  intros n s1 Hn Hs. apply nobody in Hs. rewrite Hs. destruct Hn as [Hn|[y [[Hy|[]] Hn]]]; [|rewrite <- Hy in Hn]; rewrite Hn; vm_compute; reflexivity.
Qed.

(** The answer need not be one of any moment: bob wished to be encrypted to, then wrote a mail without
    key, and now writes one with a new key and without the wish.  At no moment the recommendation is
    "encrypt"; but a process that asks while the last mail is processed can be told "encrypt". *)
Definition turn_not_encrypt (s : fstate) : bool :=
  match snd (frun (on_files turn_asks) s) with Ok (OOptText (Some t)) => negb (text_eqb t (L "encrypt")) | _ => true end.
Theorem C87_answer_of_one_moment_refuted : exists (E : Env) h c acct y r ps' s',
  store_laws /\ clock_injective /\ load [] = None /\ no_collision s' /\ deletes_all c = false /\
  (let asks := x <- r_recommend acct [y] false None ;; Ret (OOptText x) in
   interleave [on_files asks; on_files (exec c)] (files_after h) (WatchSpec.ended (Ok r) :: ps') s' /\
   forall s1, at_some_time [on_files (exec c)] (files_after h) s1 -> snd (frun (on_files asks) s1) <> Ok r).
Proof.
  exists E0, turn_before, turn_mail, (L "a"), (Some bob), (OOptText (Some (L "encrypt"))), (tl (fst turn_race)), (snd turn_race).
  destruct C87_example as [H1 [H2 [H3 [H4 [H5 [[p2 H6] H7]]]]]]. split; [exact H1|]. split; [exact H2|]. split; [exact H3|]. split; [exact H7|]. split; [exact H4|].
  cbv zeta. fold (@turn_asks E0). split.
  - rewrite H6 in H5 |- *. exact H5.
  - intros s1 Hs He.
    assert (Ha : turn_not_encrypt s1 = true).
    { apply (always_sound turn_not_encrypt 200 (on_files (exec turn_mail)) (files_after turn_before) s1); [vm_compute; reflexivity|exact Hs]. }
    unfold turn_not_encrypt in Ha. rewrite He in Ha. vm_compute in Ha. discriminate Ha.
Qed.
Print Assumptions C87_answer_of_one_moment_refuted.

(** Encrypting has the same gap: the handle given to gpg and the key told to the other recipients can
    be those of two different keys, which no moment has. *)
Definition turn_seal {E : Env} : prog cop outcome := x <- r_encrypt_recipient (L "a") ([], Msg [] PNone) bob ;; Ret (OEncrypted (snd x) (fst x)).
Definition turn_race2 : list (prog fop outcome) * fstate :=
  schedule (repeat 0%nat 5 ++ repeat 1%nat 100 ++ repeat 0%nat 60) [on_files turn_seal; on_files (exec turn_mail)] (files_after turn_before).
Definition turn_sealed : outcome := match fst turn_race2 with Ret o :: _ => o | _ => ONone end.
Definition same_headers (m1 m2 : msg) : bool := forallb (fun '(p, q) => text_eqb (snd p) (snd q)) (combine (m_headers m1) (m_headers m2)).
Definition turn_other (s : fstate) : bool :=
  match snd (frun (on_files turn_seal) s), turn_sealed with
  | Ok (OEncrypted m ks), OEncrypted m1 ks1 => negb (same_headers m m1 && forallb (fun '(p, q) => text_eqb p q) (combine ks ks1))
  | _, _ => true
  end.
Theorem C87_handle_and_key_refuted : exists (E : Env) h c acct st y r ps' s',
  store_laws /\ clock_injective /\ load [] = None /\ no_collision s' /\ deletes_all c = false /\
  (let seal := x <- r_encrypt_recipient acct st y ;; Ret (OEncrypted (snd x) (fst x)) in
   interleave [on_files seal; on_files (exec c)] (files_after h) (WatchSpec.ended (Ok r) :: ps') s' /\
   forall s1, at_some_time [on_files (exec c)] (files_after h) s1 -> snd (frun (on_files seal) s1) <> Ok r).
Proof.
  exists E0, turn_before, turn_mail, (L "a"), ([], Msg [] PNone), bob, turn_sealed, (tl (fst turn_race2)), (snd turn_race2).
  split; [apply toy_store_laws|]. split; [exact E0_clock|]. split; [vm_compute; reflexivity|]. split; [apply toy_no_collision|]. split; [reflexivity|].
  cbv zeta. fold (@turn_seal E0). split.
  - assert (H : interleave [on_files turn_seal; on_files (exec turn_mail)] (files_after turn_before) (fst turn_race2) (snd turn_race2)) by (unfold turn_race2; exact (schedule_interleave _ _ _)).
    assert (Hf : fst turn_race2 = WatchSpec.ended (Ok turn_sealed) :: tl (fst turn_race2)) by (vm_compute; reflexivity).
    rewrite Hf in H. exact H.
  - intros s1 Hs He.
    assert (Ha : turn_other s1 = true).
    { apply (always_sound turn_other 200 (on_files (exec turn_mail)) (files_after turn_before) s1); [vm_compute; reflexivity|exact Hs]. }
    unfold turn_other in Ha. rewrite He in Ha. vm_compute in Ha. discriminate Ha.
Qed.
Print Assumptions C87_handle_and_key_refuted.
