(** The gpg processes behind the recorded key handles: all calls (C97). *)
From Verif Require Import Base PyStr Env Prog Chain Gpg Mime States Recommendation Account Cmdline Bot Fs Api Steps StepFacts Exec ApiScope
  Spec Obs PeerSpec OutSpec AcctSpec Incoming PeerFacts PeerProofs4 Quiet OutProofs AcctFacts AcctProofs AcctProofs2 Rings CliSpec TalkSpec
  GpgSpec GpgText KeySpec KeyText KeyProofs FailSpec FailProofs Utf8 StoreFacts HandleProofs RealProofs ToldSpec ToldProofs.

Create HintDb md.
Ltac md := repeat first
  [ solve [auto with md nocore]
  | apply allowed_bind; [|intros]
  | apply allowed_lift | apply allowed_assert
  | apply allowed_perform; exact I
  | apply allowed_foldM; intros | apply allowed_mapM; intros
  | apply allowed_catch; [|intros]
  | constructor
  | match goal with |- allowed _ (match ?x with _ => _ end) => destruct x end
  | match goal with |- allowed _ (if ?x then _ else _) => destruct x end
  | match goal with H : _ = Some ?q |- allowed _ ?q => revert H; match goal with |- (match ?x with _ => _ end) = _ -> _ => destruct x end; intros H; try discriminate; injection H as <- end ].
Ltac mdx f := unfold f; md.

Section ToldProofs2.
Context {E : Env}.
(** ** Calls that record no keys *)
Lemma md_gpg_outerr g argv i t st d : allowed mild (gpg_outerr g argv i t st d).
Proof. mdx @gpg_outerr. Qed.
Hint Resolve md_gpg_outerr : md.
Lemma md_list_pub g k : allowed mild (list_public_keyinfos g k). Proof. unfold list_public_keyinfos, parse_list. md. Qed.
Hint Resolve md_list_pub : md.
Lemma md_sec g k : allowed mild (get_secret_keyhandle g k). Proof. unfold get_secret_keyhandle, list_secret_keyinfos, parse_list. md. Qed.
Hint Resolve md_sec : md.
Lemma md_find g x : allowed mild (find_keyhandle g x). Proof. mdx @find_keyhandle. Qed.
Hint Resolve md_find : md.
Lemma md_gen g x : allowed mild (gen_secret_key g x). Proof. mdx @gen_secret_key. Qed.
Lemma md_pk g x y : allowed mild (get_public_keydata g x y). Proof. mdx @get_public_keydata. Qed.
Lemma md_sk g x y : allowed mild (get_secret_keydata g x y). Proof. mdx @get_secret_keydata. Qed.
Lemma md_enc g x y z : allowed mild (gpg_encrypt g x y z). Proof. mdx @gpg_encrypt. Qed.
Lemma md_dec g x : allowed mild (gpg_decrypt g x). Proof. mdx @gpg_decrypt. Qed.
Hint Resolve md_gen md_pk md_sk md_enc md_dec : md.
Lemma md_imp g x y : allowed mild (import_keydata g x y). Proof. mdx @import_keydata. Qed.
Hint Resolve md_imp : md.
Lemma md_oc a : allowed mild (own_config a). Proof. mdx @own_config. Qed.
Lemma md_ok a : allowed mild (own_keyhandle a). Proof. mdx @own_keyhandle. Qed.
Hint Resolve md_oc md_ok : md.
Lemma md_bg a : allowed mild (get_bingpg a). Proof. mdx @get_bingpg. Qed.
Hint Resolve md_bg : md.
Lemma md_append_mgr v : allowed mild (perform (CAppend mgr_chain (EACfg v))).
Proof. apply allowed_perform. split; [exact I|]. intros a H. symmetry in H. revert H. apply own_mgr. Qed.
Hint Resolve md_append_mgr : md.
Lemma md_ei : allowed mild ensure_init. Proof. unfold ensure_init, mgr_version, set_version. md. Qed.
Lemma md_ae a : allowed mild (account_exists a). Proof. mdx @account_exists. Qed.
Hint Resolve md_ei md_ae : md.
Lemma md_ga n c : allowed mild (get_account n c). Proof. mdx @get_account. Qed.
Lemma md_names : allowed mild list_account_names. Proof. unfold list_account_names, get_account_names. md. Qed.
Lemma md_pnames a : allowed mild (get_peername_list a). Proof. unfold get_peername_list. md. Qed.
Hint Resolve md_ga md_names md_pnames : md.
Lemma md_loop l a : allowed mild (account_loop l a).
Proof. induction l; cbn [account_loop]; md. Qed.
Hint Resolve md_loop : md.
Lemma md_from a r : allowed mild (get_account_from_emailadr a r). Proof. mdx @get_account_from_emailadr. Qed.
Hint Resolve md_from : md.
Lemma md_match m : allowed mild (get_matching_account m). Proof. mdx @get_matching_account. Qed.
Lemma md_rec a x r f : allowed mild (recommend a x r f). Proof. unfold recommend, ui_recommendation. md. Qed.
Lemma md_hdr a x : allowed mild (make_ac_header a x). Proof. mdx @make_ac_header. Qed.
Lemma md_ik a p : allowed mild (import_key a p). Proof. mdx @import_key. Qed.
Hint Resolve md_match md_rec md_hdr md_ik : md.
Lemma md_dm a m : allowed mild (decrypt_mime a m). Proof. mdx @decrypt_mime. Qed.
Lemma md_em a m t : allowed mild (encrypt_mime a m t). Proof. unfold encrypt_mime, encrypt_recipient. md. Qed.
Hint Resolve md_dm md_em : md.
Lemma md_po a m : allowed mild (process_outgoing a m). Proof. mdx @process_outgoing. Qed.
Lemma md_sa a v : allowed mild (cli_status_account a v). Proof. unfold cli_status_account, status_peer_line. md. Qed.
Hint Resolve md_po md_sa : md.
Lemma md_st v : allowed mild (cli_status v). Proof. mdx @cli_status. Qed.
Hint Resolve md_st : md.

(** ** Keeping an invariant *)
Definition keep (P : ast -> Prop) {A} (p : prog cop A) : Prop := forall s, P s -> P (fst (arun p s)).
Definition okr (P : ast -> Prop) {A} (p : prog cop A) (Q : A -> Prop) : Prop := forall s a, P s -> snd (arun p s) = Ok a -> Q a.
Lemma keep_mild (P : ast -> Prop) {A} (p : prog cop A) : steady P -> allowed mild p -> keep P p.
Proof. intros Hs Hp s. unfold arun. apply (run_allowed_inv (@astep E) mild P p); [intros; apply Hs; assumption|exact Hp]. Qed.
Lemma keep_bind (P : ast -> Prop) {A B} (p : prog cop A) (f : A -> prog cop B) (Q : A -> Prop) :
  keep P p -> okr P p Q -> (forall a, Q a -> keep P (f a)) -> keep P (bind p f).
Proof.
  intros Hp Hq Hf s HP. rewrite arun_bind. specialize (Hp s HP). specialize (fun a => Hq s a HP). destruct (arun p s) as [s1 [a|e]]; cbn [fst snd] in *; [|exact Hp].
  apply Hf; [apply Hq; reflexivity|exact Hp].
Qed.
Lemma okr_true P {A} (p : prog cop A) : okr P p (fun _ => True). Proof. intros s a _ _. exact I. Qed.
Lemma keep_then (P : ast -> Prop) {A B} (p : prog cop A) (f : A -> prog cop B) : keep P p -> (forall a, keep P (f a)) -> keep P (bind p f).
Proof. intros Hp Hf. apply (keep_bind P p f (fun _ => True)); [exact Hp|apply okr_true|auto]. Qed.
Lemma keep_catch (P : ast -> Prop) {A} (p : prog cop A) h : keep P p -> (forall e q, h e = Some q -> keep P q) -> keep P (catch p h).
Proof.
  intros Hp Hh s HP. unfold arun. rewrite run_catch. specialize (Hp s HP). unfold arun in Hp. destruct (run _ p s) as [s1 [a|e]]; cbn [fst] in *; [exact Hp|].
  destruct (h e) as [q|] eqn:Eh; [|exact Hp]. apply (Hh e q Eh). exact Hp.
Qed.
Lemma keep_mapM (P : ast -> Prop) {A B} (f : A -> prog cop B) l : (forall a, keep P (f a)) -> keep P (mapM f l).
Proof.
  intros H. induction l as [|a l IH]; cbn [mapM]; [intros s Hs; exact Hs|]. apply keep_then; [apply H|]. intros b. apply keep_then; [exact IH|]. intros r s Hs. exact Hs.
Qed.
Lemma keep_foldM (P : ast -> Prop) {A B} (f : B -> A -> prog cop B) l : (forall b a, keep P (f b a)) -> forall b, keep P (foldM f l b).
Proof. intros H. induction l as [|a l IH]; intros b; cbn [foldM]; [intros s Hs; exact Hs|]. apply keep_then; [apply H|apply IH]. Qed.

Lemma okr_bind P {A B} (p : prog cop A) (f : A -> prog cop B) (Q : A -> Prop) (R : B -> Prop) :
  keep P p -> okr P p Q -> (forall a, Q a -> okr P (f a) R) -> okr P (bind p f) R.
Proof.
  intros Hk Hp Hf s b HP. rewrite arun_bind. specialize (Hk s HP). specialize (fun a => Hp s a HP). destruct (arun p s) as [s1 [a|e]]; cbn [fst snd] in *; [|discriminate].
  apply Hf; [apply Hp; reflexivity|exact Hk].
Qed.
Lemma okr_then P {A B} (p : prog cop A) (f : A -> prog cop B) (R : B -> Prop) : keep P p -> (forall a, okr P (f a) R) -> okr P (bind p f) R.
Proof. intros Hk H. apply (okr_bind P p f (fun _ => True)); [exact Hk|apply okr_true|auto]. Qed.
Lemma okr_ret P {A} (a : A) (Q : A -> Prop) : Q a -> okr P (Ret a) Q. Proof. intros H s b _ [= <-]. exact H. Qed.
Lemma okr_raise P {A} e (Q : A -> Prop) : okr P (Raise e) Q. Proof. intros s b _ H. discriminate. Qed.

(** ** Names of accounts *)
Section Names.
Variable s0 : ast.
Let P := J s0.
Definition there (a : text) : Prop := isalnum a = true /\ exists_acct s0 a.
Lemma J_there s a : J s0 s -> exists_acct s a -> exists_acct s0 a.
Proof. intros [_ Ho]. unfold exists_acct, config_of, keygen_of. rewrite Ho. auto. Qed.
Lemma keep_J {A} (p : prog cop A) : allowed mild p -> keep P p.
Proof. apply keep_mild, J_steady. Qed.
Lemma okr_account n : okr P (get_account n true) there.
Proof.
  intros s a HJ H. destruct (arun (get_account n true) s) as [s' r] eqn:Er. cbn [snd] in H. subst r.
  assert (HJ' : J s0 s') by (change s' with (fst (s', @Ok text a)); rewrite <- Er; apply keep_J; [apply md_ga|exact HJ]).
  unfold get_account in Er. apply arun_bind_ok in Er as [s1 [u [_ H]]]. apply arun_bind_ok in H as [s2 [u2 [H1 H]]]. apply arun_assert_ok in H1 as [-> H1].
  apply arun_bind_ok in H as [s3 [ex [H2 H]]]. destruct ex; [|discriminate]. apply arun_ret_ok in H as [-> ->]. split; [exact H1|].
  apply (J_there s3 n HJ'). apply is_configured_exists. unfold account_exists in H2. apply arun_bind_ok in H2 as [s4 [l [H3 H2]]]. apply arun_read_ok in H3 as [-> ->].
  apply arun_ret_ok in H2 as [-> H2]. symmetry. exact H2.
Qed.
Definition some_name (r : option text) : Prop := forall a, r = Some a -> there a.
Lemma okr_loop l x : okr P (account_loop l x) some_name.
Proof.
  induction l as [|n l IH]; cbn [account_loop]; [apply okr_ret; intros a H; discriminate|]. apply (okr_bind P _ _ _ _ (keep_J _ (md_ga n true)) (okr_account n)). intros a Ha.
  apply okr_then; [apply keep_J; apply md_oc|]. intros c. apply okr_then; [apply keep_J; apply allowed_lift|]. intros b. destruct b; [|exact IH]. apply okr_ret. intros a' [= <-]. exact Ha.
Qed.
Lemma okr_from x r : okr P (get_account_from_emailadr x r) some_name.
Proof.
  unfold get_account_from_emailadr. apply okr_then; [apply keep_J, md_names|]. intros names. apply (okr_bind P _ _ _ _ (keep_J _ (md_loop names x)) (okr_loop names x)). intros o Ho.
  destruct o; [apply okr_ret; exact Ho|]. destruct r; [apply okr_raise|apply okr_ret; intros a H; discriminate].
Qed.
Lemma okr_mapM {A B} (f : A -> prog cop B) (Q : B -> Prop) l : (forall a, keep P (f a)) -> (forall a, okr P (f a) Q) -> okr P (mapM f l) (Forall Q).
Proof.
  intros Hk H. induction l as [|a l IH]; cbn [mapM]; [apply okr_ret; constructor|]. apply (okr_bind P _ _ _ _ (Hk a) (H a)). intros b Hb.
  apply (okr_bind P _ _ _ _ (keep_mapM P f l Hk) IH). intros r Hr. apply okr_ret. constructor; assumption.
Qed.
Lemma okr_matching m : okr P (get_matching_account m) there.
Proof.
  unfold get_matching_account. apply okr_then; [apply keep_J, md_names|]. intros names.
  apply (okr_bind P _ _ (Forall (fun x : text * text => there (snd x)))).
  - apply keep_J. md.
  - apply okr_mapM; [intros n; apply keep_J; md|]. intros n. apply (okr_bind P _ _ _ _ (keep_J _ (md_ga n true)) (okr_account n)). intros a Ha.
    apply okr_then; [apply keep_J, md_oc|]. intros c. apply okr_ret. exact Ha.
  - intros l Hl. apply (okr_bind P _ _ some_name).
    + apply keep_J, allowed_lift.
    + intros s r _ H a ->. destruct (match_addrs l (get_target_emailadr m)) as [o|] eqn:Em; [|discriminate]. cbn in H. injection H as ->. apply match_addrs_In in Em.
      apply in_map_iff in Em as [x [<- Hx]]. rewrite Forall_forall in Hl. apply Hl, Hx.
    + intros [a|] Ho; [apply okr_ret; apply Ho; reflexivity|]. apply okr_then; [apply keep_J, allowed_lift|]. intros d. apply (okr_bind P _ _ _ _ (keep_J _ (md_from d true)) (okr_from d true)).
      intros [a|] Ho'; [apply okr_ret; apply Ho'; reflexivity|apply okr_raise].
Qed.
End Names.

(** ** Recording keys *)
Section Call.
Variable s0 : ast.
Lemma peer_own' a x b : peer_chain a x <> own_chain b.
Proof. intros H. symmetry in H. revert H. apply own_peer. Qed.
Lemma J_update s a x id date pref kd kh : there s0 a -> J s0 s ->
  (forall k h gs, kd = Some k -> kh = Some h -> h <> [] -> since s0 s gs -> exists c, config_of s0 a = Some c /\ told_in (runs (a_rings s0) gs) c a k h) ->
  J s0 (fst (arun (update_from_msg (peer_chain a x) id date pref kd kh) s)).
Proof.
  intros Ha HJ Ht. unfold update_from_msg. rewrite arun_bind. change (arun (perform (CRead (peer_chain a x))) s) with (s, @Ok (list block) (alog s (peer_chain a x))). cbv iota beta.
  destruct (Z.ltb _ _); [exact HJ|]. cbv zeta. match goal with |- J _ (fst (arun (if ?b then _ else _) _)) => destruct b end; [exact HJ|].
  pose proof HJ as [[gs [Hs Hl]] _].
  match goal with |- J _ (fst (arun (if ?b then _ else _) _)) => destruct b eqn:En end.
  - match goal with |- J _ (fst (arun (if ?b then _ else _) _)) => destruct b end; [|exact HJ]. unfold mk_msg_entry. destruct (valid_pref _); [|exact HJ]. cbn [lift bind]. eapply J_append; [exact HJ|exact Hs|apply peer_own'|]. left. reflexivity.
  - unfold mk_msg_entry. destruct pref as [pf|]; [|exact HJ]. destruct (valid_pref pf); [|exact HJ]. cbn [lift bind]. eapply J_append; [exact HJ|exact Hs|apply peer_own'|].
    destruct kd as [k|]; [|discriminate]. destruct kh as [h|]; [|left; reflexivity]. destruct h as [|c h]; [left; reflexivity|]. right.
    destruct (Ht k (c :: h) gs eq_refl eq_refl ltac:(discriminate) Hs) as [cf [Hc Hi]]. exists a, x, cf, k, (c :: h).
    split; [reflexivity|]. split; [apply Ha|]. split; [apply Ha|]. split; [exact Hc|]. split; [split; reflexivity|exact Hi].
Qed.
Lemma J_gossip s a x id date kd kh : there s0 a -> J s0 s ->
  (forall k h gs, kd = Some k -> kh = Some h -> h <> [] -> since s0 s gs -> exists c, config_of s0 a = Some c /\ told_in (runs (a_rings s0) gs) c a k h) ->
  J s0 (fst (arun (update_from_msg_gossip (peer_chain a x) id date kd kh) s)).
Proof.
  intros Ha HJ Ht. unfold update_from_msg_gossip. rewrite arun_bind. change (arun (perform (CRead (peer_chain a x))) s) with (s, @Ok (list block) (alog s (peer_chain a x))). cbv iota beta.
  destruct (Z.ltb _ _); [exact HJ|]. cbv zeta. match goal with |- J _ (fst (arun (if ?b then _ else _) _)) => destruct b eqn:En end; [exact HJ|].
  match goal with |- J _ (fst (arun (if ?b then _ else _) _)) => destruct b end; [exact HJ|].
  pose proof HJ as [[gs [Hs Hl]] _]. unfold mk_gossip_entry. destruct kh as [h|]; [|exact HJ]. cbn [lift bind]. eapply J_append; [exact HJ|exact Hs|apply peer_own'|].
  destruct kd as [k|]; [|discriminate]. destruct h as [|c h]; [left; reflexivity|]. right.
  destruct (Ht k (c :: h) gs eq_refl eq_refl ltac:(discriminate) Hs) as [cf [Hc Hi]]. exists a, x, cf, k, (c :: h).
  split; [reflexivity|]. split; [apply Ha|]. split; [apply Ha|]. split; [exact Hc|]. split; [split; reflexivity|exact Hi].
Qed.
Lemma import_key_told s s' a p o p' : arun (import_key a p) s = (s', Ok (o, p')) -> J s0 s -> J s0 s' /\
  (forall k h gs, p_keydata p' = Some k -> o = Some h -> h <> [] -> since s0 s' gs -> exists c, config_of s0 a = Some c /\ told_in (runs (a_rings s0) gs) c a k h).
Proof.
  intros H HJ. assert (HJ' : J s0 s') by (change s' with (fst (s', @Ok (option text * pah) (o, p'))); rewrite <- H; apply keep_mild; [apply J_steady|apply md_ik|exact HJ]).
  split; [exact HJ'|]. intros k h gs Hk -> Hn Hs. unfold import_key in H. apply arun_bind_ok in H as [s1 [g [H1 H]]].
  apply bingpg_exact in H1 as [-> [c [Hc [Hl [_ Hh]]]]]. unfold config_of in Hc. rewrite (proj2 HJ a) in Hc. fold (config_of s0 a) in Hc. exists c. split; [exact Hc|]. destruct (p_keydata p) as [kd|] eqn:Ek; [|discriminate].
  unfold arun in H. rewrite run_catch in H. fold (@arun E) in H.
  destruct (run (@astep E) (kh <- import_keydata g kd false ;; Ret (Some kh, p)) s) as [s1 [[o1 p1]|e]] eqn:Er.
  - assert (Hr : arun (kh <- import_keydata g kd false ;; Ret (Some kh, p)) s = (s1, Ok (o1, p1))) by exact Er. clear Er.
    apply arun_bind_ok in Hr as [s2 [kh [H1 H2]]]. apply arun_ret_ok in H2 as [-> H2]. injection H2 as -> ->.
    assert (s2 = s' /\ kh = h /\ p = p') as [-> [-> ->]] by (split; [|split]; congruence).
    assert (kd = k) as -> by congruence. apply (import_told g c a) in H1; [|exact Hh]. destruct H1 as [g1 [post [M Hi]]].
    destruct HJ as [[gs0 [Hs0 _]] _]. destruct (since_moved _ _ _ _ _ Hs0 M) as [Hs1 R1]. rewrite (since_unique _ _ _ _ Hs Hs1), R1. apply told_before.
    exists (gp_path g), k, post. auto.
  - destruct e; discriminate H.
Qed.
Lemma keep_ac_header a m f x d i : there s0 a -> keep (J s0) (process_autocrypt_header a m f (peer_chain a x) d i).
Proof.
  intros Ha s HJ. unfold process_autocrypt_header. rewrite arun_bind. destruct (parse_one_ac_header_from_msg m [f]) as [p|e]; [|exact HJ]. cbn [lift]. change (arun (Ret p) s) with (s, @Ok pah p). cbv iota beta.
  rewrite arun_bind. destruct (has_error p).
  - change (arun (Ret (@None text, p)) s) with (s, @Ok (option text * pah) (None, p)). cbv iota beta. rewrite arun_bind.
    assert (HJ' : J s0 (fst (arun (update_from_msg (peer_chain a x) i d (p_pref p) (p_keydata p) None) s))) by (apply J_update; [exact Ha|exact HJ|intros k h gs _ Hx; discriminate]).
    destruct (arun (update_from_msg _ _ _ _ _ _) s) as [s1 [u|e]]; exact HJ'.
  - destruct (arun (import_key a p) s) as [s1 [[o p']|e]] eqn:Er.
    + apply import_key_told in Er as [H1 H2]; [|exact HJ]. rewrite arun_bind.
      assert (HJ' : J s0 (fst (arun (update_from_msg (peer_chain a x) i d (p_pref p') (p_keydata p') o) s1))) by (apply J_update; [exact Ha|exact H1|exact H2]).
      destruct (arun (update_from_msg _ _ _ _ _ _) s1) as [s2 [u|e]]; exact HJ'.
    + cbn [fst]. change s1 with (fst (s1, @Err (option text * pah) e)). rewrite <- Er. apply keep_mild; [apply J_steady|apply md_ik|exact HJ].
Qed.
Lemma keep_gossip_recipient a d i st r : there s0 a -> keep (J s0) (gossip_recipient a d i st r).
Proof.
  intros Ha s HJ. unfold gossip_recipient. destruct st as [m1 m2]. destruct (dget m1 r) as [p|]; [|exact HJ]. rewrite arun_bind.
  destruct (arun (import_key a p) s) as [s1 [[o p']|e]] eqn:Er.
  - apply import_key_told in Er as [H1 H2]; [|exact HJ]. rewrite arun_bind. unfold peerstate_chain.
    assert (HJ' : J s0 (fst (arun (update_from_msg_gossip (peer_chain a (parse_email_addr (Some r))) i d (p_keydata p') o) s1))) by (apply J_gossip; [exact Ha|exact H1|exact H2]).
    destruct (arun (update_from_msg_gossip _ _ _ _ _) s1) as [s2 [u|e]]; exact HJ'.
  - cbn [fst]. change s1 with (fst (s1, @Err (option text * pah) e)). rewrite <- Er. apply keep_mild; [apply J_steady|apply md_ik|exact HJ].
Qed.
Ltac kmild := apply keep_mild; [apply J_steady|solve [md]].
Lemma keep_process_incoming a m i n : there s0 a -> keep (J s0) (process_incoming a m i n).
Proof.
  intros Ha. unfold process_incoming, effective_date. cbv zeta. apply keep_then; [kmild|intros d]. apply keep_then; [kmild|intros date]. apply keep_then; [kmild|intros l].
  destruct (i && _); [kmild|]. apply keep_then; [apply keep_ac_header; exact Ha|intros p]. apply keep_then; [kmild|intros enc]. apply keep_then; [|intros; kmild].
  destruct enc; [|kmild]. apply keep_then; [kmild|intros [dec u]]. apply keep_then; [|intros; kmild].
  unfold process_gossip_headers. apply keep_then; [kmild|intros a2]. apply keep_then; [|intros; kmild]. apply keep_foldM. intros b r. apply keep_gossip_recipient. exact Ha.
Qed.
Lemma keep_import_as a x kd pref : there s0 a -> keep (J s0) (import_keydata_as_autocrypt a x kd pref).
Proof.
  intros Ha s HJ. unfold import_keydata_as_autocrypt. rewrite arun_bind. destruct (arun (get_bingpg a) s) as [s1 [g|e]] eqn:Eg.
  2: { cbn [fst]. change s1 with (fst (s1, @Err bingpg e)). rewrite <- Eg. apply keep_mild; [apply J_steady|apply md_bg|exact HJ]. }
  apply bingpg_exact in Eg as [-> [c [Hc [Hl [_ Hh]]]]]. unfold config_of in Hc. rewrite (proj2 HJ a) in Hc. fold (config_of s0 a) in Hc. revert s HJ.
  match goal with |- forall s, _ -> J s0 (fst (arun ?q s)) => change (keep (J s0) q) end.
  apply keep_then; [kmild|intros kh0]. apply keep_then; [destruct x; kmild|intros uids].
  intros s HJ. rewrite arun_bind. destruct (arun (import_keydata g kd true) s) as [s1 [kh|e]] eqn:Ei.
  2: { cbn [fst]. change s1 with (fst (s1, @Err text e)). rewrite <- Ei. apply keep_mild; [apply J_steady|apply md_imp|exact HJ]. }
  assert (HJ1 : J s0 s1) by (change s1 with (fst (s1, @Ok text kh)); rewrite <- Ei; apply keep_mild; [apply J_steady|apply md_imp|exact HJ]).
  apply (import_told g c a) in Ei; [|exact Hh]. destruct Ei as [g1 [post [M Hi]]].
  assert (HI1 : imp s0 (gp_path g) (cf_mode c) a kh s1).
  { destruct HJ as [[gs0 [Hs0 _]] _]. destruct (since_moved _ _ _ _ _ Hs0 M) as [Hs1 R1]. exists (gs0 ++ g1), kd, post. split; [exact Hs1|]. rewrite R1. apply imported_before, Hi. }
  clear s HJ g1 post M Hi. set (K := fun s => J s0 s /\ imp s0 (gp_path g) (cf_mode c) a kh s).
  assert (HK : steady K) by (intros X o s Ho [H1 H2]; split; [apply J_steady|apply imp_steady]; assumption).
  assert (Hall : keep K (mapM (fun a0 => now <- perform CTime ;; kd0 <- get_public_keydata g kh false ;;
      update_from_msg (peerstate_chain a a0) [] now (Some pref) (Some kd0) (Some kh)) uids ;;; kd0 <- get_public_keydata g kh false ;; Ret (ImportResult uids pref kh kd0))).
  2: { exact (proj1 (Hall s1 (conj HJ1 HI1))). }
  apply keep_then; [|intros r; apply keep_mild; [exact HK|md]].
  apply keep_mapM. intros y. apply keep_then; [apply keep_mild; [exact HK|md]|intros now].
  intros s [HJ HI]. rewrite arun_bind. destruct (arun (get_public_keydata g kh false) s) as [s2 [k|e]] eqn:Ek.
  2: { cbn [fst]. change s2 with (fst (s2, @Err bytes e)). rewrite <- Ek. apply keep_mild; [exact HK|apply md_pk|split; assumption]. }
  unfold get_public_keydata in Ek. apply arun_bind_ok in Ek as [s3 [[out err] [H1 H2]]]. apply arun_ret_ok in H2 as [-> ->].
  apply (outerr_told g c a) in H1; [|exact Hh|discriminate]. destruct H1 as [res [M [R [Z0 [Z1 [Z2 Z3]]]]]]. injection Z2 as Z2.
  rewrite (Z3 eq_refl) in Z1. apply utf8_inverse in Z1. injection Z1 as Z1.
  assert (HJ2 : J s0 s3) by (eapply J_moved; [exact HJ|exact M]). assert (HI2 : imp s0 (gp_path g) (cf_mode c) a kh s3) by (eapply imp_moved; [exact HI|exact M]).
  split.
  - unfold peerstate_chain. apply J_update; [exact Ha|exact HJ2|]. intros k h gs Hk Hkh Hn Hs. assert (k = out /\ h = kh) as [-> ->] by (split; congruence).
    destruct HI as [gs1 [data [post [Hs1 Hi]]]]. destruct (since_moved _ _ _ _ _ Hs1 M) as [Hs2 R2]. rewrite (since_unique _ _ _ _ Hs Hs2), R2.
    destruct (imported_more _ (runs (a_rings s) [fst (for_account (gp_path g) (cf_mode c) a [L "--export-options=export-minimal"; L "--export"; kh] None res)]) _ _ _ _ _ _ Hi) as [post' [Hi' ->]].
    exists c. split; [exact Hc|]. eexists (gp_path g), data, _. split; [exact Hl|]. split; [exact Hi'|]. right. exists res. split; [|auto].
    apply in_or_app. right. match goal with |- In _ ?l => replace l with [for_account (gp_path g) (cf_mode c) a [L "--export-options=export-minimal"; L "--export"; kh] None res] by (symmetry; exact R) end.
    left. reflexivity.
  - unfold arun. apply (run_allowed_inv (@astep E) no_rmtree (imp s0 (gp_path g) (cf_mode c) a kh)); [|apply nr_um|exact HI2].
    intros X o s4 Ho. apply imp_any. destruct o; try exact I. exact Ho.
Qed.
End Call.
End ToldProofs2.
