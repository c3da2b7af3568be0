(** Facts about the store: sessions on files, what a log contains, block files never change. *)
From Verif Require Import Base PyStr Env Prog Chain Gpg Mime States Recommendation Account Cmdline Bot Fs Api Refine Spec.

Section StoreFacts.
Context {E : Env}.

Lemma spec_log_app n e1 e2 l : spec_log n (e1 ++ e2) l = spec_log n e2 (spec_log n e1 l).
Proof. revert l; induction e1 as [|[] e1 IH]; intros; simpl; auto. Qed.

Lemma event_log X (o : cop X) s n : alog (fst (astep o s)) n = spec_log n (event_of o s) (alog s n).
Proof.
  destruct o; simpl; try reflexivity.
  - unfold alog; simpl. rewrite dget_dset, text_eqb_sym. destruct (text_eqb_spec n0 n) as [->|]; reflexivity.
  - unfold alog; simpl. rewrite dget_dremove_if. destruct (f n); reflexivity.
  - destruct (gpg _ _ _ _); reflexivity.
Qed.

Lemma events_log A (p : prog cop A) s n : alog (fst (arun p s)) n = spec_log n (events p s) (alog s n).
Proof.
  revert s; induction p as [a|e|X o k IH]; intros s; simpl; try reflexivity.
  unfold arun in *; simpl. pose proof (event_log X o s n) as H.
  destruct (astep o s) as [s' x]; simpl in *. rewrite spec_log_app, <- H. apply IH.
Qed.

Lemma session_log h s n : alog (fst (session h s)) n = spec_log n (session_events h s) (alog s n).
Proof.
  revert s; induction h as [|c h IH]; intros s; [reflexivity|]. cbn [session session_events].
  pose proof (events_log _ (exec c) s n) as He. destruct (arun (exec c) s) as [s1 r]. simpl in *.
  rewrite spec_log_app, <- He, <- IH. destruct (session h s1); reflexivity.
Qed.

(** ** Sessions on files *)
Section Laws.
Hypothesis HL : store_laws.

Lemma fsession_written h s : incl (f_written s) (f_written (fst (fsession h s))).
Proof.
  revert s; induction h as [|c h IH]; intros s; simpl; [apply incl_refl|].
  pose proof (frun_written _ (on_files (exec c)) s) as Hw.
  destruct (frun (on_files (exec c)) s) as [s1 r]; simpl in *. specialize (IH s1).
  destruct (fsession h s1); simpl in *. eapply incl_tran; eauto.
Qed.

Lemma refine_session h s a : R s a -> no_collision (fst (fsession h s)) ->
  snd (fsession h s) = snd (session h a) /\ R (fst (fsession h s)) (fst (session h a)).
Proof.
  revert s a; induction h as [|c h IH]; intros s a HR HN; [auto|]. cbn [fsession session] in *.
  destruct (frun (on_files (exec c)) s) as [s1 r1] eqn:E1.
  destruct (fsession h s1) as [s2 r2] eqn:E2. cbn [fst snd] in *.
  assert (HN1 : no_collision s1).
  { eapply no_collision_incl; [|exact HN]. pose proof (fsession_written h s1). rewrite E2 in H. exact H. }
  destruct (refine_prog HL _ (exec c) s a s1 r1 HR E1 HN1) as [-> HR1].
  destruct (arun (exec c) a) as [a1 x] eqn:Ea. cbn [fst snd] in *.
  specialize (IH s1 a1 HR1). rewrite E2 in IH. cbn [fst snd] in IH. specialize (IH HN).
  destruct (session h a1) as [a2 r3]. cbn [fst snd] in *. destruct IH as [-> IH]. auto.
Qed.
End Laws.

(** ** Block files never change, unless everything is deleted *)
Definition no_rmtree (X : Type) (o : cop X) : Prop := match o with CRmTree => False | _ => True end.

Definition readonly (X : Type) (o : fop X) : Prop :=
  match o with FReadHeads | FReadBlock _ | FCountBlocks => True | _ => False end.
Lemma readonly_run A (p : prog fop A) s : allowed readonly p -> fst (frun p s) = s.
Proof.
  intros H. revert s. induction H as [a|e|X o k HP Hk IH]; intros s; try reflexivity.
  unfold frun in *; simpl. destruct o; simpl in HP; try contradiction; simpl; apply IH.
Qed.
Ltac ro := repeat first
  [ apply allowed_bind; [|intros] | apply allowed_perform; exact I | constructor
  | match goal with |- allowed _ (match ?x with _ => _ end) => destruct x end
  | match goal with |- allowed _ (if ?x then _ else _) => destruct x end ].
Lemma ro_getheads : allowed readonly getheads.
Proof. unfold getheads. ro. Qed.
Lemma ro_get_block cid : allowed readonly (get_block cid).
Proof. unfold get_block. ro. Qed.
Lemma ro_walk fuel cid : allowed readonly (walk fuel cid).
Proof.
  revert cid; induction fuel as [|f IH]; intros cid; cbn [walk]; [constructor|].
  apply allowed_bind; [apply ro_get_block|]. intros [fb|]; [|constructor].
  destruct (entry_of _ _); [|constructor]. apply allowed_bind; [|intros; constructor].
  destruct (fb_parent fb); [|constructor]. destruct (nonempty t); [apply IH|constructor].
Qed.
Lemma ro_read_chain n : allowed readonly (read_chain n).
Proof.
  unfold read_chain. apply allowed_bind; [apply ro_getheads|]. intros d.
  destruct (dget d n); [|constructor]. destruct (nonempty t); [|constructor].
  apply allowed_bind; [apply allowed_perform; exact I|]. intros; apply ro_walk.
Qed.
Lemma ro_head_parent n : allowed readonly (head_parent n).
Proof.
  unfold head_parent. apply allowed_bind; [apply ro_getheads|]. intros d.
  destruct (dget d n); [|constructor]. destruct (nonempty t); [|constructor].
  apply allowed_bind; [apply ro_get_block|]. intros; constructor.
Qed.

(** every file was written by the program and has the name of its hash *)
Definition intact (s : fstate) : Prop :=
  forall cid b, dget (f_blocks s) cid = Some b -> sha256 b = cid /\ In b (f_written s).
Definition same_blocks (s s' : fstate) : Prop :=
  forall cid b, dget (f_blocks s) cid = Some b -> dget (f_blocks s') cid = Some b.

Lemma append_entry_blocks n e s :
  let s' := fst (frun (append_entry n e) s) in
  (f_blocks s' = f_blocks s /\ f_written s' = f_written s) \/
  exists ser, f_blocks s' = dset (dset (f_blocks s) (sha256 ser) []) (sha256 ser) ser /\
              f_written s' = ser :: f_written s.
Proof.
  cbv zeta. unfold append_entry, frun. rewrite run_bind.
  pose proof (readonly_run _ _ s (ro_head_parent n)) as H. unfold frun in H.
  destruct (run (@fstep E) (head_parent n) s) as [s1 [p|x]]; simpl in H; subst s1; [|left; auto].
  right. unfold store_block. cbn [bind perform run fstep]. unfold upsert. rewrite run_bind.
  match goal with |- context [run _ getheads ?x] => set (s1 := x) end.
  pose proof (readonly_run _ _ s1 ro_getheads) as H. unfold frun in H.
  destruct (run (@fstep E) getheads s1) as [s2 [d|x]]; simpl in H; subst s2; cbn [bind perform run fstep fst];
    eexists; split; reflexivity.
Qed.

Lemma impl_blocks X (o : cop X) s : no_rmtree X o -> no_collision (fst (frun (impl o) s)) ->
  intact s -> intact (fst (frun (impl o) s)) /\ same_blocks s (fst (frun (impl o) s)).
Proof.
  intros Hn HC Hi. assert (Hrefl : same_blocks s s) by (intros c b H; exact H).
  destruct o; cbn [impl] in *; try contradiction.
  - split; [exact Hi|exact Hrefl].
  - split; [exact Hi|exact Hrefl].
  - rewrite (readonly_run _ _ s (ro_read_chain n)). auto.
  - destruct (append_entry_blocks n e s) as [[H1 H2]|[ser [H1 H2]]].
    + unfold intact, same_blocks. rewrite H1, H2. auto.
    + assert (Hs : same_blocks s (fst (frun (append_entry n e) s))).
      { intros cid b Hb. rewrite H1, dset_dset_get. destruct (text_eqb_spec cid (sha256 ser)) as [->|Hne]; [|exact Hb].
        destruct (Hi _ _ Hb) as [Hh Hw]. f_equal. apply HC; rewrite ?H2; simpl; auto. }
      split; [|exact Hs]. intros cid b. rewrite H1, H2, dset_dset_get.
      destruct (text_eqb_spec cid (sha256 ser)) as [->|Hne].
      * intros [= <-]. simpl; auto.
      * intros Hb. destruct (Hi _ _ Hb). simpl; auto.
  - unfold frun. rewrite run_bind. pose proof (readonly_run _ _ s ro_getheads) as H. unfold frun in H.
    destruct (run (@fstep E) getheads s) as [s1 [d|x]]; simpl in H; subst s1; auto.
  - unfold remove_if, frun. rewrite run_bind. pose proof (readonly_run _ _ s ro_getheads) as H. unfold frun in H.
    destruct (run (@fstep E) getheads s) as [s1 [d|x]]; simpl in H; subst s1; auto.
  - unfold frun; simpl. destruct (gpg _ _ _ _); simpl. auto.
Qed.

Lemma prog_blocks A (p : prog cop A) : allowed no_rmtree p -> forall s,
  no_collision (fst (frun (on_files p) s)) -> intact s ->
  intact (fst (frun (on_files p) s)) /\ same_blocks s (fst (frun (on_files p) s)).
Proof.
  induction 1 as [a|e|X o k HP Hk IH]; intros s HC Hi.
  - split; [exact Hi|intros c b H; exact H].
  - split; [exact Hi|intros c b H; exact H].
  - unfold on_files, frun in *. cbn [expand] in *. rewrite run_bind in *.
    pose proof (impl_blocks X o s HP) as H0. unfold frun in H0.
    destruct (run (@fstep E) (impl o) s) as [s1 [x|x]]; cbn [fst] in *.
    + assert (HC1 : no_collision s1).
      { eapply no_collision_incl; [|exact HC]. apply (frun_written _ (expand (@impl E) (k x)) s1). }
      destruct (H0 HC1 Hi) as [H1 H2]. destruct (IH x s1 HC H1) as [H3 H4].
      split; [exact H3|]. intros c b Hb. apply H4, H2, Hb.
    + apply H0; auto.
Qed.

(** ** No call but remove and destroy-all deletes the directory *)
Lemma nr_gpg_outerr g argv i t st d : allowed no_rmtree (gpg_outerr g argv i t st d).
Proof. unfold gpg_outerr. ro. Qed.
Lemma nr_lift A (r : result A) : allowed no_rmtree (lift r). Proof. apply allowed_lift. Qed.
Create HintDb nr.
Ltac nr := repeat first
  [ solve [auto with nr nocore]
  | apply allowed_bind; [|intros]
  | apply allowed_lift | apply allowed_assert
  | apply allowed_perform; exact I
  | apply allowed_foldM; intros | apply allowed_mapM; intros
  | apply allowed_catch; [|intros]
  | constructor
  | match goal with |- allowed _ (match ?x with _ => _ end) => destruct x end
  | match goal with |- allowed _ (if ?x then _ else _) => destruct x end
  | match goal with H : _ = Some ?q |- allowed _ ?q => revert H; match goal with |- (match ?x with _ => _ end) = _ -> _ => destruct x end; intros H; try discriminate; injection H as <- end ].
#[local] Hint Resolve nr_gpg_outerr : nr.
Ltac nrx f := unfold f; nr.
Lemma nr_list_pub g k : allowed no_rmtree (list_public_keyinfos g k). Proof. unfold list_public_keyinfos, parse_list. nr. Qed.
#[local] Hint Resolve nr_list_pub : nr.
Lemma nr_sec g k : allowed no_rmtree (get_secret_keyhandle g k). Proof. unfold get_secret_keyhandle, list_secret_keyinfos, parse_list. nr. Qed.
#[local] Hint Resolve nr_sec : nr.
Lemma nr_find g x : allowed no_rmtree (find_keyhandle g x). Proof. nrx @find_keyhandle. Qed.
#[local] Hint Resolve nr_find : nr.
Lemma nr_gen g x : allowed no_rmtree (gen_secret_key g x). Proof. nrx @gen_secret_key. Qed.
Lemma nr_pk g x y : allowed no_rmtree (get_public_keydata g x y). Proof. nrx @get_public_keydata. Qed.
Lemma nr_sk g x y : allowed no_rmtree (get_secret_keydata g x y). Proof. nrx @get_secret_keydata. Qed.
Lemma nr_enc g x y z : allowed no_rmtree (gpg_encrypt g x y z). Proof. nrx @gpg_encrypt. Qed.
Lemma nr_dec g x : allowed no_rmtree (gpg_decrypt g x). Proof. nrx @gpg_decrypt. Qed.
#[local] Hint Resolve nr_gen nr_pk nr_sk nr_enc nr_dec : nr.
Lemma nr_imp g x y : allowed no_rmtree (import_keydata g x y). Proof. nrx @import_keydata. Qed.
#[local] Hint Resolve nr_imp : nr.
Lemma nr_oc a : allowed no_rmtree (own_config a). Proof. nrx @own_config. Qed.
Lemma nr_ok a : allowed no_rmtree (own_keyhandle a). Proof. nrx @own_keyhandle. Qed.
#[local] Hint Resolve nr_oc nr_ok : nr.
Lemma nr_bg a : allowed no_rmtree (get_bingpg a). Proof. nrx @get_bingpg. Qed.
#[local] Hint Resolve nr_bg : nr.
Lemma nr_um a b c d e f : allowed no_rmtree (update_from_msg a b c d e f). Proof. nrx @update_from_msg. Qed.
Lemma nr_ug a b c d e : allowed no_rmtree (update_from_msg_gossip a b c d e). Proof. nrx @update_from_msg_gossip. Qed.
#[local] Hint Resolve nr_um nr_ug : nr.
Lemma nr_ei : allowed no_rmtree ensure_init. Proof. unfold ensure_init, mgr_version, set_version. nr. Qed.
Lemma nr_ae a : allowed no_rmtree (account_exists a). Proof. nrx @account_exists. Qed.
#[local] Hint Resolve nr_ei nr_ae : nr.
Lemma nr_ga n c : allowed no_rmtree (get_account n c). Proof. nrx @get_account. Qed.
Lemma nr_names : allowed no_rmtree list_account_names. Proof. unfold list_account_names, get_account_names. nr. Qed.
Lemma nr_pnames a : allowed no_rmtree (get_peername_list a). Proof. unfold get_peername_list. nr. Qed.
#[local] Hint Resolve nr_ga nr_names nr_pnames : nr.
Lemma nr_cr a r k b m : allowed no_rmtree (create a r k b m). Proof. unfold create, new_config, append_keygen. nr. Qed.
#[local] Hint Resolve nr_cr : nr.
Lemma nr_add a r k b m : allowed no_rmtree (add_account a r k b m). Proof. nrx @add_account. Qed.
Lemma nr_mod a r k b m : allowed no_rmtree (mod_account a r k b m). Proof. unfold mod_account, change_config. nr. Qed.
Lemma nr_del a : allowed no_rmtree (del_account a). Proof. unfold del_account, remove_account. nr. Qed.
#[local] Hint Resolve nr_add nr_mod nr_del : nr.
Lemma nr_loop l a : allowed no_rmtree (account_loop l a).
Proof. induction l; cbn [account_loop]; nr. Qed.
#[local] Hint Resolve nr_loop : nr.
Lemma nr_from a r : allowed no_rmtree (get_account_from_emailadr a r). Proof. nrx @get_account_from_emailadr. Qed.
#[local] Hint Resolve nr_from : nr.
Lemma nr_match m : allowed no_rmtree (get_matching_account m). Proof. nrx @get_matching_account. Qed.
Lemma nr_rec a x r f : allowed no_rmtree (recommend a x r f). Proof. unfold recommend, ui_recommendation. nr. Qed.
Lemma nr_hdr a x : allowed no_rmtree (make_ac_header a x). Proof. nrx @make_ac_header. Qed.
Lemma nr_ik a p : allowed no_rmtree (import_key a p). Proof. nrx @import_key. Qed.
#[local] Hint Resolve nr_match nr_rec nr_hdr nr_ik : nr.
Lemma nr_pa a m f c d i : allowed no_rmtree (process_autocrypt_header a m f c d i). Proof. nrx @process_autocrypt_header. Qed.
Lemma nr_dm a m : allowed no_rmtree (decrypt_mime a m). Proof. nrx @decrypt_mime. Qed.
Lemma nr_pg a m d i : allowed no_rmtree (process_gossip_headers a m d i). Proof. unfold process_gossip_headers, gossip_recipient. nr. Qed.
#[local] Hint Resolve nr_pa nr_dm nr_pg : nr.
Lemma nr_pi a m i d : allowed no_rmtree (process_incoming a m i d). Proof. unfold process_incoming, effective_date. nr. Qed.
Lemma nr_ikd a x k p : allowed no_rmtree (import_keydata_as_autocrypt a x k p). Proof. nrx @import_keydata_as_autocrypt. Qed.
Lemma nr_em a m t : allowed no_rmtree (encrypt_mime a m t). Proof. unfold encrypt_mime, encrypt_recipient. nr. Qed.
#[local] Hint Resolve nr_pi nr_ikd nr_em : nr.
Lemma nr_po a m : allowed no_rmtree (process_outgoing a m). Proof. nrx @process_outgoing. Qed.
Lemma nr_sa a v : allowed no_rmtree (cli_status_account a v). Proof. unfold cli_status_account, status_peer_line. nr. Qed.
#[local] Hint Resolve nr_po nr_sa : nr.
Lemma nr_st v : allowed no_rmtree (cli_status v). Proof. nrx @cli_status. Qed.
Lemma nr_scan r n f : allowed no_rmtree (scan_one r n f). Proof. unfold scan_one, effective_date. nr. Qed.
Lemma nr_bot f b m : allowed no_rmtree (bot_reply f b m). Proof. nrx @bot_reply. Qed.
#[local] Hint Resolve nr_st nr_scan nr_bot : nr.

Lemma exec_no_rmtree c : match c with ARemove => False | ACliDestroy yes => yes = false | _ => True end ->
  allowed no_rmtree (exec c).
Proof.
  destruct c; intros H; try contradiction; cbn [exec];
    unfold with_account, export_public_key, export_secret_key, append_self_verification, append_peer_verification,
      get_verification, cli_add_account, cli_mod_account, cli_del_account, cli_process_incoming, cli_scandir,
      cli_process_outgoing, cli_peerstate; try solve [nr].
  subst yes. simpl. nr.
Qed.

End StoreFacts.
