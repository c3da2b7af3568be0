(** What gpg is asked for by each call: proofs of C65. *)
From Verif Require Import Base PyStr Base64 Env Prog Chain Gpg Mime States Recommendation Account Cmdline Bot Fs Api Spec PeerSpec RecSpec OutSpec
  CliSpec CliProofs2 TalkSpec.

Section GpgUse.
Context {E : Env}.

Definition op_in (K : list kind) (X : Type) (o : cop X) : Prop :=
  match o with
  | CGpg argv inp tmp => exists k, In k K /\ exists path home args, argv = [path; L "--batch"] ++ home ++ args /\ home_args home /\ of_kind k args
  | _ => True
  end.
Definition asking (K : list kind) {A} (p : prog cop A) : Prop := allowed (op_in K) p.

Lemma ask_weaken K K' {A} (p : prog cop A) : asking K p -> incl K K' -> asking K' p.
Proof.
  intros H Hi. eapply allowed_weaken; [|exact H]. intros X o. destruct o; cbn; auto. intros [k [Hk H']]. exists k. auto.
Qed.
Lemma ask_bind K {A B} (p : prog cop A) (f : A -> prog cop B) : asking K p -> (forall a, asking K (f a)) -> asking K (bind p f).
Proof. apply allowed_bind. Qed.
Lemma ask_catch K {A} (p : prog cop A) h : asking K p -> (forall e q, h e = Some q -> asking K q) -> asking K (catch p h).
Proof. apply allowed_catch. Qed.
Lemma ask_mapM K {A B} (f : A -> prog cop B) l : (forall a, asking K (f a)) -> asking K (mapM f l).
Proof. intros H. apply allowed_mapM. intros a _. apply H. Qed.
Lemma ask_foldM K {A B} (f : B -> A -> prog cop B) l b : (forall b a, asking K (f b a)) -> asking K (foldM f l b).
Proof. intros H. apply allowed_foldM. intros b' a _. apply H. Qed.
Lemma ask_lift K {A} (r : result A) : asking K (lift r). Proof. apply allowed_lift. Qed.
Lemma ask_ret K {A} (a : A) : asking K (Ret a). Proof. constructor. Qed.
Lemma ask_raise K {A} e : asking K (@Raise cop A e). Proof. constructor. Qed.
Lemma ask_assert K b : asking K (assert_ b). Proof. apply allowed_assert. Qed.
Lemma ask_outerr K k g argv i t st dec : of_kind k argv -> In k K -> asking K (gpg_outerr g argv i t st dec).
Proof.
  intros H Hk. unfold gpg_outerr. apply allowed_bind.
  - apply allowed_perform. exists k. split; [exact Hk|]. exists (gp_path g), (homedirflags g), argv. split; [reflexivity|]. split; [apply flags_home|exact H].
  - intros r. destruct (Z.eqb _ _); [constructor|]. destruct (utf8 _); [|constructor]. destruct (if dec then _ else _); [|constructor].
    destruct (_ || _); constructor.
Qed.
Create HintDb ask.
Ltac ask := repeat match goal with
  | |- asking _ (bind (if true then Ret ?a else _) ?f) => change (bind (if true then Ret a else _) f) with (f a); cbv beta iota
  | |- asking _ (bind (if false then _ else Ret ?a) ?f) => change (bind (if false then _ else Ret a) f) with (f a); cbv beta iota
  | |- asking _ (bind (Ret ?a) ?f) => change (bind (Ret a) f) with (f a); cbv beta iota
  | |- asking _ (bind _ _) => apply ask_bind; [|intros ?]
  | |- asking _ (lift _) => apply ask_lift
  | |- asking _ (assert_ _) => apply ask_assert
  | |- asking _ (perform _) => apply allowed_perform; exact I
  | |- asking _ (Ret _) => apply ask_ret
  | |- asking _ (Raise _) => apply ask_raise
  | |- asking _ (mapM _ _) => apply ask_mapM; intros ?
  | |- asking _ (foldM _ _ _) => apply ask_foldM; intros ? ?
  | |- asking _ (match ?x with _ => _ end) => destruct x
  | |- asking _ (let (_, _) := ?x in _) => destruct x
  | |- asking _ (let _ := _ in _) => cbv zeta
  | |- asking _ _ => solve [auto 2 with ask]
  end.
Lemma pass_ok g : pass_args (nopassphrase g). Proof. apply nopass_args. Qed.

Lemma ask_list_pub K g kh : In KListPublic K -> asking K (list_public_keyinfos g kh).
Proof. intros H. unfold list_public_keyinfos, parse_list. apply ask_bind; [apply (ask_outerr _ KListPublic); [constructor|assumption]|]. intros [o e]. ask. Qed.
Lemma ask_list_sec K g kh : In KListSecret K -> asking K (list_secret_keyinfos g kh).
Proof. intros H. unfold list_secret_keyinfos, parse_list. apply ask_bind; [apply (ask_outerr _ KListSecret); [constructor|assumption]|]. intros [o e]. ask. Qed.
Hint Resolve ask_list_pub ask_list_sec : ask.
Lemma ask_sec_kh K g kh : In KListSecret K -> asking K (get_secret_keyhandle g kh).
Proof. intros H. unfold get_secret_keyhandle. ask. Qed.
Lemma ask_find K g e : In KListPublic K -> asking K (find_keyhandle g e).
Proof. intros H. unfold find_keyhandle. ask. Qed.
Hint Resolve ask_sec_kh ask_find : ask.
Lemma ask_gen K g x : In KGenerate K -> In KListPublic K -> asking K (gen_secret_key g x).
Proof. intros H1 H2. unfold gen_secret_key, version_known. apply ask_bind; [apply ask_lift|intros sp]. apply ask_bind; [apply ask_lift|intros v]. apply ask_bind; [apply (ask_outerr _ KGenerate); [constructor; apply pass_ok|assumption]|]. intros [o e]. ask. Qed.
Lemma ask_pub K g kh b : In KExport K -> asking K (get_public_keydata g kh b).
Proof. intros H. unfold get_public_keydata. apply ask_bind; [apply (ask_outerr _ KExport); [constructor|assumption]|]. intros [o e]. ask. Qed.
Lemma ask_sec K g kh b : In KExportSecret K -> asking K (get_secret_keydata g kh b).
Proof. intros H. unfold get_secret_keydata, version_known. apply ask_bind; [apply ask_lift|intros v]. apply ask_bind; [apply (ask_outerr _ KExportSecret); [constructor; apply pass_ok|assumption]|]. intros [o e]. ask. Qed.
Lemma ask_encrypt K g d r s : In KEncrypt K -> asking K (gpg_encrypt g d r s).
Proof. intros H. unfold gpg_encrypt, version_known. apply ask_bind; [apply ask_lift|intros v]. apply ask_bind; [apply (ask_outerr _ KEncrypt); [apply k_encrypt; apply pass_ok|assumption]|]. intros [o e]. ask. Qed.
Lemma ask_decrypt K g d : In KDecrypt K -> asking K (gpg_decrypt g d).
Proof. intros H. unfold gpg_decrypt, version_known. apply ask_bind; [apply ask_lift|intros v]. apply ask_bind; [apply (ask_outerr _ KDecrypt); [constructor; apply pass_ok|assumption]|]. intros [o e]. ask. Qed.
Hint Resolve ask_gen ask_pub ask_sec ask_encrypt ask_decrypt : ask.
Lemma ask_import K g d : In KImport K -> In KListPublic K -> asking K (import_keydata g d false).
Proof. intros H1 H2. unfold import_keydata. apply ask_bind; [apply (ask_outerr _ KImport); [constructor|assumption]|]. intros [o e]. ask. Qed.
Lemma ask_minimize K g d b : In KImport K -> In KListPublic K -> In KExport K -> In KDelete K -> asking K (import_keydata g d b).
Proof.
  intros H1 H2 H3 H4. unfold import_keydata. apply ask_bind; [apply (ask_outerr _ KImport); [constructor|assumption]|]. intros [o e].
  ask; first [apply (ask_outerr _ KDelete); [constructor|assumption]|apply (ask_outerr _ KImport); [constructor|assumption]].
Qed.
Hint Resolve ask_import ask_minimize : ask.

Lemma ask_own_config K a : asking K (own_config a). Proof. unfold own_config. ask. Qed.
Lemma ask_own_keyhandle K a : asking K (own_keyhandle a). Proof. unfold own_keyhandle. ask. Qed.
Hint Resolve ask_own_config ask_own_keyhandle : ask.
Lemma ask_bingpg K a : asking K (get_bingpg a). Proof. unfold get_bingpg. ask. Qed.
Lemma ask_ensure_init K : asking K ensure_init. Proof. unfold ensure_init, mgr_version, set_version. ask. Qed.
Hint Resolve ask_bingpg ask_ensure_init : ask.
Lemma ask_get_account K n b : asking K (get_account n b). Proof. unfold get_account, account_exists. ask. Qed.
Lemma ask_names K : asking K list_account_names. Proof. unfold list_account_names, get_account_names. ask. Qed.
Lemma ask_peers K a : asking K (get_peername_list a). Proof. unfold get_peername_list. ask. Qed.
Hint Resolve ask_get_account ask_names ask_peers : ask.
Lemma ask_new_config K a c : asking K (new_config a c). Proof. unfold new_config. ask. Qed.
Lemma ask_change_config K a p r b : asking K (change_config a p r b). Proof. unfold change_config. ask. Qed.
Lemma ask_keygen K a kd kh : asking K (append_keygen a kd kh). Proof. unfold append_keygen. ask. Qed.
Hint Resolve ask_new_config ask_change_config ask_keygen : ask.
Lemma ask_update K c i d p k h : asking K (update_from_msg c i d p k h). Proof. unfold update_from_msg. ask. Qed.
Lemma ask_update_gossip K c i d k h : asking K (update_from_msg_gossip c i d k h). Proof. unfold update_from_msg_gossip. ask. Qed.
Hint Resolve ask_update ask_update_gossip : ask.
Lemma ask_account_loop K ns x : asking K (account_loop ns x).
Proof. induction ns as [|n ns IH]; cbn [account_loop]; ask. Qed.
Hint Resolve ask_account_loop : ask.
Lemma ask_from_emailadr K x b : asking K (get_account_from_emailadr x b). Proof. unfold get_account_from_emailadr. ask. Qed.
Hint Resolve ask_from_emailadr : ask.
Lemma ask_matching K m : asking K (get_matching_account m). Proof. unfold get_matching_account. ask. Qed.
Lemma ask_recommend K a xs r f : asking K (recommend a xs r f). Proof. unfold recommend, ui_recommendation. ask. Qed.
Hint Resolve ask_matching ask_recommend : ask.

Lemma ask_create K a r kh b md : incl (for_adding kh) K -> asking K (create a r kh b md).
Proof.
  intros Hi. unfold create. destruct kh as [h|]; cbn [for_adding] in Hi.
  - assert (In KListSecret K) by (apply Hi; cbn; auto). assert (In KExportSecret K) by (apply Hi; cbn; auto). ask.
  - assert (In KGenerate K) by (apply Hi; cbn; auto). assert (In KListPublic K) by (apply Hi; cbn; auto).
    assert (In KExportSecret K) by (apply Hi; cbn; auto). ask.
Qed.
Lemma ask_add K n r kh b md : incl (for_adding kh) K -> asking K (add_account n r kh b md).
Proof. intros Hi. unfold add_account, account_exists. ask. apply ask_create, Hi. Qed.
Lemma ask_import_key K a p : In KImport K -> In KListPublic K -> asking K (import_key a p).
Proof.
  intros H1 H2. unfold import_key. ask. apply ask_catch; [ask|]. intros e q. destruct e; try discriminate. intros [= <-]. ask.
Qed.
Hint Resolve ask_import_key : ask.
Lemma ask_decrypt_mime K a m : In KDecrypt K -> asking K (decrypt_mime a m).
Proof. intros H. unfold decrypt_mime. ask. Qed.
Hint Resolve ask_decrypt_mime : ask.
Lemma ask_incoming K a m ign nd : incl (for_incoming nd) K -> asking K (process_incoming a m ign nd).
Proof.
  intros Hi. assert (In KImport K) by (apply Hi; cbn; auto). assert (In KListPublic K) by (apply Hi; cbn; auto).
  unfold process_incoming, effective_date, process_autocrypt_header. destruct nd.
  - ask.
  - assert (In KDecrypt K) by (apply Hi; cbn; auto). unfold process_gossip_headers, gossip_recipient. ask.
Qed.
Lemma ask_header K a x : In KExport K -> asking K (make_ac_header a x). Proof. intros H. unfold make_ac_header. ask. Qed.
Lemma ask_encrypt_mime K a m to : In KEncrypt K -> asking K (encrypt_mime a m to).
Proof. intros H. unfold encrypt_mime, encrypt_recipient. ask. Qed.
Hint Resolve ask_header ask_encrypt_mime : ask.
Lemma ask_outgoing K a m : incl for_outgoing K -> asking K (process_outgoing a m).
Proof.
  intros Hi. assert (In KExport K) by (apply Hi; cbn; auto). assert (In KEncrypt K) by (apply Hi; cbn; auto).
  unfold process_outgoing. ask.
Qed.
Lemma ask_import_as K a x kd pr : In KImport K -> In KListPublic K -> In KExport K -> In KDelete K ->
  asking K (import_keydata_as_autocrypt a x kd pr).
Proof. intros H1 H2 H3 H4. unfold import_keydata_as_autocrypt. ask. Qed.
Lemma ask_status_account K a v : In KListPublic K -> asking K (cli_status_account a v).
Proof. intros H. unfold cli_status_account, status_peer_line. ask. Qed.
Hint Resolve ask_import_as ask_status_account : ask.
Lemma ask_status K v : In KListPublic K -> asking K (cli_status v).
Proof. intros H. unfold cli_status. ask. Qed.
Hint Resolve ask_status : ask.
Lemma ask_scan_one K r now f : incl (for_incoming false) K -> asking K (scan_one r now f).
Proof.
  intros Hi. unfold scan_one, effective_date. ask.
  - apply ask_catch; [ask|]. intros e q. destruct e; try discriminate; intros [= <-]; ask.
  - apply ask_catch; [|intros e q; destruct e; try discriminate; intros [= <-]; ask]. ask. apply ask_incoming, Hi.
Qed.
Lemma ask_bot K fb body m : incl (for_incoming false ++ for_outgoing) K -> asking K (bot_reply fb body m).
Proof.
  intros Hi. assert (In KExport K) by (apply Hi; cbn; auto 10). assert (In KEncrypt K) by (apply Hi; cbn; auto 10).
  assert (In KDecrypt K) by (apply Hi; cbn; auto 10).
  assert (Hi' : incl (for_incoming false) K) by (intros k Hk; apply Hi, in_or_app; auto).
  pose proof (fun a => ask_incoming K a m false false Hi') as Hinc.
  unfold bot_reply. ask.
Qed.
Lemma ask_exec c : asking (may_ask c) (exec c).
Proof.
  destruct c; cbn [exec may_ask]; unfold with_account.
  - ask. apply ask_add, incl_refl.
  - unfold mod_account. ask.
  - unfold del_account, remove_account. ask.
  - ask.
  - ask.
  - ask.
  - unfold remove_all. ask.
  - ask. apply ask_incoming, incl_refl.
  - ask. apply ask_outgoing, incl_refl.
  - ask. apply ask_encrypt_mime. cbn; auto.
  - ask. apply ask_decrypt_mime. cbn; auto.
  - ask.
  - ask. apply ask_header. cbn; auto.
  - unfold export_public_key. ask; apply ask_pub; cbn; auto.
  - unfold export_secret_key. ask. apply ask_sec; cbn; auto.
  - ask. apply ask_import_as; cbn; auto.
  - ask.
  - ask.
  - ask.
  - unfold append_self_verification. ask.
  - unfold append_peer_verification. ask.
  - unfold get_verification. ask.
  - unfold cli_add_account. ask; [apply ask_add; intros k Hk; apply in_or_app; auto|]. apply ask_status_account, in_or_app. cbn; auto.
  - unfold cli_mod_account, mod_account. ask. apply ask_status_account. cbn; auto.
  - unfold cli_del_account, del_account, remove_account. ask. apply ask_status. cbn; auto.
  - unfold cli_destroy_all, mgr_version, remove_all. ask.
  - ask. apply ask_status. cbn; auto.
  - unfold cli_process_incoming. ask; apply ask_incoming, incl_refl.
  - unfold cli_scandir. ask. apply ask_scan_one, incl_refl.
  - unfold cli_process_outgoing. ask. apply ask_outgoing, incl_refl.
  - unfold cli_peerstate. ask.
  - ask. apply ask_bot, incl_refl.
Qed.
Lemma asking_trace K {A} (p : prog cop A) s : asking K p ->
  exists new, a_trace (fst (arun p s)) = new ++ a_trace s /\ Forall (fun g => exists k, In k K /\ asks g k) new.
Proof.
  intros Hp. unfold arun.
  refine (run_allowed_inv (@astep E) (op_in K) (fun s' => exists new, a_trace s' = new ++ a_trace s /\ Forall (fun g => exists k, In k K /\ asks g k) new) p _ Hp s _).
  - intros X o s' Ho [l [H1 H2]]. destruct o; cbn [astep fst]; try (exists l; split; assumption).
    destruct (gpg _ _ _ _) as [r' res]. cbn [fst a_trace]. eexists (_ :: l). rewrite H1. split; [reflexivity|]. constructor; [|exact H2]. exact Ho.
  - exists []. auto.
Qed.
Theorem c65 : forall s c g, ran s (after s c) g -> exists k, In k (may_ask c) /\ asks g k.
Proof.
  intros s c g [l [Ht Hi]]. destruct (asking_trace _ (exec c) s (ask_exec c)) as [new [H1 H2]].
  unfold after in Ht. rewrite H1 in Ht. apply app_inv_tail in Ht. subst l. rewrite Forall_forall in H2. auto.
Qed.
(** a command is of one kind only *)
Lemma of_kind_fun k k' home home' args args' : home_args home -> home_args home' -> of_kind k args -> of_kind k' args' ->
  home ++ args = home' ++ args' -> k = k'.
Proof.
  intros H1 H2 K1 K2 He.
  assert (Ha : args = args').
  { destruct H1 as [->|[h ->]], H2 as [->|[h' ->]]; cbn [app] in He; try congruence.
    - destruct K1 as [| | ? ? [->| ->]|[]|[] ? ? [->| ->]| ? ? [->| ->]|? [->| ->]| |]; discriminate He.
    - destruct K2 as [| | ? ? [->| ->]|[]|[] ? ? [->| ->]| ? ? [->| ->]|? [->| ->]| |]; discriminate He. }
  subst args'. clear He H1 H2.
  destruct K1 as [| | ? ? [->| ->]|[]|[] ? ? [->| ->]| ? ? [->| ->]|? [->| ->]| |]; inversion K2 as [| | ? ? [->| ->]|[]|[] ? ? [->| ->]| ? ? [->| ->]|? [->| ->]| |]; subst; try reflexivity; try discriminate; congruence.
Qed.
Theorem c65_kind : forall g k k', asks g k -> asks g k' -> k = k'.
Proof.
  intros g k k' [p [h [a [H1 [H2 H3]]]]] [p' [h' [a' [H1' [H2' H3']]]]]. rewrite H1 in H1'. cbn [app] in H1'. injection H1' as _ He.
  exact (of_kind_fun k k' h h' a a' H2 H2' H3 H3' He).
Qed.
Lemma c65_in s c g k : ran s (after s c) g -> asks g k -> In k (may_ask c).
Proof. intros H1 H2. destruct (c65 s c g H1) as [k' [H3 H4]]. rewrite (c65_kind g k k' H2 H4). exact H3. Qed.
Theorem c65_secret : forall s c g, ran s (after s c) g -> asks g KExportSecret ->
  (exists n r kh b md, c = AAdd n r kh b md) \/ (exists n y kh b r, c = ACliAdd n y kh b r) \/ exists n, c = AExportSec n.
Proof.
  intros s c g H1 H2. pose proof (c65_in s c g _ H1 H2) as Hi.
  destruct c; cbn in Hi; try (right; right; eexists; reflexivity); try (left; repeat eexists; reflexivity); try (right; left; repeat eexists; reflexivity);
    exfalso; repeat (destruct Hi as [Hi|Hi]; [discriminate|]); try exact Hi; destruct no_decrypt; cbn in Hi; intuition discriminate.
Qed.
Theorem c65_delete : forall s c g, ran s (after s c) g -> asks g KDelete -> exists n x kd pr, c = AImport n x kd pr.
Proof.
  intros s c g H1 H2. pose proof (c65_in s c g _ H1 H2) as Hi.
  destruct c; cbn in Hi; try (repeat eexists; reflexivity);
    exfalso; repeat (destruct Hi as [Hi|Hi]; [discriminate|]); try exact Hi; try destruct no_decrypt; try destruct kh; try destruct use_key; cbn in Hi; intuition discriminate.
Qed.
Theorem c65_generate : forall s c g, ran s (after s c) g -> asks g KGenerate ->
  (exists n r b md, c = AAdd n r None b md) \/ (exists n y b r, c = ACliAdd n y None b r).
Proof.
  intros s c g H1 H2. pose proof (c65_in s c g _ H1 H2) as Hi.
  destruct c; cbn in Hi; try (destruct kh as [?|]); try destruct use_key as [?|]; try (left; repeat eexists; reflexivity); try (right; repeat eexists; reflexivity);
    exfalso; repeat (destruct Hi as [Hi|Hi]; [discriminate|]); try exact Hi; try destruct no_decrypt; cbn in Hi; intuition discriminate.
Qed.
End GpgUse.
