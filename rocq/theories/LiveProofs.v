(** Proofs of C86. *)
From Verif Require Import Base PyStr Env Prog Chain Gpg Mime States Recommendation Account Cmdline Bot Fs Api Steps StepFacts Exec ApiScope Refine Spec AcctSpec Obs StoreFacts AcctFacts AcctProofs OutProofs Live LiveSpec.

Section LiveProofs.
Context {E : Env}.

(** ** The wrapper for gpg *)
Definition wrapper (a : text) (bin mode : text) : result bingpg :=
  if negb (nonempty bin) then Err AttributeError
  else if text_eqb mode (L "own") then mk_bingpg (Some (own_gpghome a)) bin
  else if text_eqb mode (L "system") then mk_bingpg None bin
  else Err AttributeError.
Lemma get_bingpg_run a s : arun (get_bingpg a) s =
  (s, match config_of s a with Some c => wrapper a (cf_bin c) (cf_mode c) | None => Err AttributeError end).
Proof.
  unfold get_bingpg. rewrite arun_bind, arun_own_config. destruct (config_of s a) as [c|]; [|reflexivity].
  unfold wrapper. destruct (negb (nonempty (cf_bin c))); [reflexivity|].
  destruct (text_eqb (cf_mode c) (L "own")); [destruct (mk_bingpg _ _); reflexivity|].
  destruct (text_eqb (cf_mode c) (L "system")); [destruct (mk_bingpg _ _); reflexivity|reflexivity].
Qed.
Definition at_w (a : text) (w : result bingpg) (s : ast) : Prop := arun (get_bingpg a) s = (s, w).
Definition good (w : result bingpg) (c : cache) : Prop := c = None \/ exists g, c = Some g /\ w = Ok g.

(** what leaves the settings of the account alone *)
Definition keeps (a : text) (X : Type) (o : cop X) : Prop :=
  match o with
  | CAppend n e => n <> own_chain a \/ match e with ECfg _ => False | _ => True end
  | CRemoveIf _ | CRmTree => False
  | _ => True
  end.
Lemma keeps_step a w X (o : cop X) s : keeps a X o -> at_w a w s -> at_w a w (fst (astep o s)).
Proof.
  unfold at_w. rewrite !get_bingpg_run. intros Hk H.
  assert (Hc : config_of (fst (astep o s)) a = config_of s a).
  { destruct o as [| | |n e| | | |argv inp tmp]; cbn [keeps astep fst] in *; try contradiction; try reflexivity.
    - unfold config_of. change (latest_config (alog (app_log s n e) (own_chain a)) = latest_config (alog s (own_chain a))). rewrite alog_app.
      destruct (text_eqb_spec (own_chain a) n) as [Hn|Hn]; [|reflexivity].
      destruct Hk as [Hk|Hk]; [congruence|]. destruct e; try contradiction; unfold latest_config; rewrite Hn; reflexivity.
    - destruct (gpg _ _ _ _). reflexivity. }
  rewrite Hc. injection H as H. rewrite H. reflexivity.
Qed.

(** ** Live and fresh *)
Definition sim (a : text) (w : result bingpg) {A} (ml : live A) (m : prog cop A) : Prop :=
  forall c s, at_w a w s -> good w c ->
  exists c', arun (ml c) s = (fst (arun m s), Ok (c', snd (arun m s))) /\ good w c' /\ at_w a w (fst (arun m s)).
Definition simw (a : text) (w : result bingpg) {A} (ml : live A) (m : prog cop A) : Prop :=
  forall c s, at_w a w s -> good w c ->
  exists c', arun (ml c) s = (fst (arun m s), Ok (c', snd (arun m s))) /\ good w c'.

Lemma attempt_run {A} (p : prog cop A) s :
  arun (catch (a <- p ;; Ret (Ok a)) (fun e => Some (Ret (Err e)))) s = (fst (arun p s), Ok (snd (arun p s))).
Proof.
  unfold arun. rewrite run_catch, run_bind. destruct (run (@astep E) p s) as [s1 [x|e]]; reflexivity.
Qed.
Lemma plain_run {A} (p : prog cop A) c s : arun (plain p c) s = (fst (arun p s), Ok (c, snd (arun p s))).
Proof. unfold plain. rewrite arun_bind, attempt_run. reflexivity. Qed.

Lemma sim_simw a w A (ml : live A) m : sim a w ml m -> simw a w ml m.
Proof. intros H c s H1 H2. destruct (H c s H1 H2) as [c' [H3 [H4 _]]]. eauto. Qed.
Lemma simw_plain a w A (p : prog cop A) : simw a w (plain p) p.
Proof. intros c s H1 H2. exists c. rewrite plain_run. auto. Qed.
Lemma sim_plain a w A (p : prog cop A) : allowed (keeps a) p -> sim a w (plain p) p.
Proof.
  intros Hp c s H1 H2. exists c. rewrite plain_run. split; [reflexivity|]. split; [exact H2|].
  unfold arun. apply (run_allowed_inv (@astep E) (keeps a) (at_w a w) p); auto. intros; apply keeps_step; auto.
Qed.
Lemma sim_ret a w A (x : A) : sim a w (lret x) (Ret x).
Proof. intros c s H1 H2. exists c. auto. Qed.
Lemma sim_raise a w A e : sim a w (@plain A (Raise e)) (Raise e).
Proof. apply sim_plain. constructor. Qed.
Lemma sim_bind a w A B (p : live A) q (f : A -> live B) g :
  sim a w p q -> (forall x, sim a w (f x) (g x)) -> sim a w (lbind p f) (bind q g).
Proof.
  intros H1 H2 c s Ha Hc. destruct (H1 c s Ha Hc) as [c1 [H3 [H4 H5]]]. unfold lbind. rewrite !arun_bind, H3.
  destruct (arun q s) as [s1 [x|e]]; cbn [fst snd] in *; [|exists c1; auto]. apply H2; auto.
Qed.
Lemma simw_bind a w A B (p : live A) q (f : A -> live B) g :
  sim a w p q -> (forall x, simw a w (f x) (g x)) -> simw a w (lbind p f) (bind q g).
Proof.
  intros H1 H2 c s Ha Hc. destruct (H1 c s Ha Hc) as [c1 [H3 [H4 H5]]]. unfold lbind. rewrite !arun_bind, H3.
  destruct (arun q s) as [s1 [x|e]]; cbn [fst snd] in *; [|exists c1; auto]. apply H2; auto.
Qed.
Lemma simw_bind_ret a w A B (p : live A) q (f : A -> B) :
  simw a w p q -> simw a w (lbind p (fun x => lret (f x))) (bind q (fun x => Ret (f x))).
Proof.
  intros H1 c s Ha Hc. destruct (H1 c s Ha Hc) as [c1 [H3 H4]]. unfold lbind. rewrite !arun_bind, H3.
  destruct (arun q s) as [s1 [x|e]]; cbn [fst snd] in *; exists c1; auto.
Qed.
Lemma sim_bingpg a w : sim a w (bingpg_of a) (get_bingpg a).
Proof.
  intros c s Ha Hc. unfold at_w in Ha. rewrite Ha. cbn [fst snd]. unfold bingpg_of. destruct Hc as [->|[g [-> ->]]].
  - rewrite arun_bind, attempt_run, Ha. cbn [fst snd]. destruct w as [g|e].
    + exists (Some g). split; [reflexivity|]. split; [right; eauto|exact Ha].
    + exists None. split; [reflexivity|]. split; [left; reflexivity|exact Ha].
  - exists (Some g). split; [reflexivity|]. split; [right; eauto|exact Ha].
Qed.
(** needed for the first time, and again *)
Lemma sim_first a w B (f : bingpg -> live B) k :
  (forall g, w = Ok g -> sim a w (f g) (k g)) -> sim a w (lbind (bingpg_of a) f) (bind (get_bingpg a) k).
Proof.
  intros H c s Ha Hc. destruct (sim_bingpg a w c s Ha Hc) as [c1 [H3 [H4 H5]]]. unfold lbind. rewrite !arun_bind, H3.
  unfold at_w in Ha. rewrite Ha in *. cbn [fst snd] in *. destruct w as [g|e]; [|exists c1; auto]. apply (H g eq_refl); auto.
Qed.
Lemma sim_again a w B (f : bingpg -> live B) g m : w = Ok g -> sim a w (f g) m -> sim a w (lbind (bingpg_of a) f) m.
Proof.
  intros Hw H c s Ha Hc. destruct (sim_bingpg a w c s Ha Hc) as [c1 [H3 [H4 H5]]]. unfold lbind. rewrite !arun_bind, H3.
  unfold at_w in Ha. rewrite Ha in *. cbn [fst snd] in *. rewrite Hw. rewrite Hw in H. apply H; rewrite Hw in *; auto.
Qed.
Lemma sim_catch a w A (p : live A) q h k : sim a w p q ->
  (forall e, match h e, k e with Some x, Some y => sim a w x y | None, None => True | _, _ => False end) ->
  sim a w (lcatch p h) (catch q k).
Proof.
  intros H1 H2 c s Ha Hc. destruct (H1 c s Ha Hc) as [c1 [H3 [H4 H5]]]. unfold lcatch. rewrite arun_bind, H3.
  assert (Hr : arun (catch q k) s = match arun q s with (s', Ok x) => (s', Ok x) | (s', Err e) => match k e with Some y => arun y s' | None => (s', Err e) end end)
    by (unfold arun; apply run_catch). rewrite Hr. clear Hr.
  destruct (arun q s) as [s1 [x|e]]; cbn [fst snd] in *; [exists c1; auto|].
  specialize (H2 e). destruct (h e), (k e); try contradiction; [|exists c1; auto]. apply H2; auto.
Qed.
Lemma sim_fold a w A B (f : B -> A -> live B) g l : (forall b x, sim a w (f b x) (g b x)) -> forall b, sim a w (lfold f l b) (foldM g l b).
Proof.
  intros H. induction l as [|x l IH]; intros b; [apply sim_ret|]. apply sim_bind; auto.
Qed.
Lemma sim_map a w A B (f : A -> live B) g l : (forall x, sim a w (f x) (g x)) -> sim a w (lmap f l) (mapM g l).
Proof.
  intros H. induction l as [|x l IH]; [apply sim_ret|]. cbn [lmap mapM]. apply sim_bind; [apply H|]. intros y.
  apply sim_bind; [exact IH|]. intros ys. apply sim_ret.
Qed.

(** ** The parts that only read, call gpg, or write about peers *)
Section Keeps.
Variable a : text.
Ltac kp := repeat first
  [ solve [auto with kp nocore]
  | apply allowed_bind; [|intros]
  | apply allowed_lift | apply allowed_assert
  | apply allowed_perform; first [exact I|left; intros Hx; symmetry in Hx; revert Hx; apply own_peer|right; exact I]
  | apply allowed_foldM; intros | apply allowed_mapM; intros
  | apply allowed_catch; [|intros]
  | constructor
  | match goal with |- allowed _ (match ?x with _ => _ end) => destruct x end
  | match goal with |- allowed _ (if ?x then _ else _) => destruct x end
  | match goal with H : _ = Some ?q |- allowed _ ?q => revert H; match goal with |- (match ?x with _ => _ end) = _ -> _ => destruct x end; intros H; try discriminate; injection H as <- end ].
Create HintDb kp.
Lemma kp_gpg_outerr g argv i t st d : allowed (keeps a) (gpg_outerr g argv i t st d).
Proof. unfold gpg_outerr. kp. Qed.
#[local] Hint Resolve kp_gpg_outerr : kp.
Lemma kp_list_pub g k : allowed (keeps a) (list_public_keyinfos g k). Proof. unfold list_public_keyinfos, parse_list. kp. Qed.
#[local] Hint Resolve kp_list_pub : kp.
Lemma kp_sec g k : allowed (keeps a) (get_secret_keyhandle g k). Proof. unfold get_secret_keyhandle, list_secret_keyinfos, parse_list. kp. Qed.
Lemma kp_find g x : allowed (keeps a) (find_keyhandle g x). Proof. unfold find_keyhandle. kp. Qed.
#[local] Hint Resolve kp_sec kp_find : kp.
Lemma kp_gen g x : allowed (keeps a) (gen_secret_key g x). Proof. unfold gen_secret_key. kp. Qed.
Lemma kp_pk g x y : allowed (keeps a) (get_public_keydata g x y). Proof. unfold get_public_keydata. kp. Qed.
Lemma kp_sk g x y : allowed (keeps a) (get_secret_keydata g x y). Proof. unfold get_secret_keydata. kp. Qed.
Lemma kp_enc g x y z : allowed (keeps a) (gpg_encrypt g x y z). Proof. unfold gpg_encrypt. kp. Qed.
Lemma kp_dec g x : allowed (keeps a) (gpg_decrypt g x). Proof. unfold gpg_decrypt. kp. Qed.
#[local] Hint Resolve kp_gen kp_pk kp_sk kp_enc kp_dec : kp.
Lemma kp_imp g x y : allowed (keeps a) (import_keydata g x y). Proof. unfold import_keydata. kp. Qed.
#[local] Hint Resolve kp_imp : kp.
Lemma kp_oc b : allowed (keeps a) (own_config b). Proof. unfold own_config. kp. Qed.
Lemma kp_ok b : allowed (keeps a) (own_keyhandle b). Proof. unfold own_keyhandle. kp. Qed.
#[local] Hint Resolve kp_oc kp_ok : kp.
Lemma kp_um b x c d e f g : allowed (keeps a) (update_from_msg (peerstate_chain b x) c d e f g).
Proof. unfold update_from_msg, peerstate_chain. kp. Qed.
Lemma kp_ug b x c d e f : allowed (keeps a) (update_from_msg_gossip (peerstate_chain b x) c d e f).
Proof. unfold update_from_msg_gossip, peerstate_chain. kp. Qed.
Lemma kp_rec b x r f : allowed (keeps a) (recommend b x r f). Proof. unfold recommend, ui_recommendation. kp. Qed.
Lemma kp_er b st x : allowed (keeps a) (encrypt_recipient b st x). Proof. unfold encrypt_recipient. kp. Qed.
Lemma kp_date d : allowed (keeps a) (effective_date d). Proof. unfold effective_date. kp. Qed.
Lemma kp_names b : allowed (keeps a) (get_peername_list b). Proof. unfold get_peername_list. kp. Qed.
Lemma kp_keygen b d k : allowed (keeps a) (append_keygen b d k). Proof. unfold append_keygen. kp. Qed.
Lemma kp_fold b l st : allowed (keeps a) (foldM (encrypt_recipient b) l st).
Proof. apply allowed_foldM. intros. apply kp_er. Qed.
Lemma kp_lift A (r : result A) : allowed (keeps a) (lift r). Proof. apply allowed_lift. Qed.
Lemma kp_assert b : allowed (keeps a) (assert_ b). Proof. apply allowed_assert. Qed.
End Keeps.

Ltac kept := apply sim_plain; first [apply kp_lift|apply kp_assert|apply kp_gen|apply kp_pk|apply kp_sk|apply kp_enc|apply kp_dec|apply kp_imp|apply kp_oc|apply kp_ok|
  apply kp_um|apply kp_ug|apply kp_rec|apply kp_date|apply kp_names|apply kp_keygen|apply kp_fold|apply kp_sec|apply kp_list_pub|apply allowed_perform; exact I].
Ltac sb := first [apply sim_ret|apply sim_raise|kept|apply sim_first; intros ? ?|apply sim_bind; [|intros ?]].

Lemma sim_header a w adr : sim a w (live_header a adr) (make_ac_header a adr).
Proof. unfold live_header, make_ac_header. repeat sb. Qed.
Lemma sim_export_public a w kh : sim a w (live_export_public a kh) (export_public_key a kh).
Proof. unfold live_export_public, export_public_key. apply sim_bind; [destruct kh; sb|intros h]. repeat sb. Qed.
Lemma sim_export_secret a w : sim a w (live_export_secret a) (export_secret_key a).
Proof. unfold live_export_secret, export_secret_key. repeat sb. Qed.
Lemma sim_import_key a w p : sim a w (live_import_key a p) (import_key a p).
Proof.
  unfold live_import_key, import_key. sb. destruct (p_keydata p) as [kd|]; [|sb].
  apply sim_catch; [repeat sb|]. intros e. destruct e; try exact I. apply sim_ret.
Qed.
Lemma sim_autocrypt a w m from x date id : sim a w (live_autocrypt_header a m from (peerstate_chain a x) date id) (process_autocrypt_header a m from (peerstate_chain a x) date id).
Proof.
  unfold live_autocrypt_header, process_autocrypt_header. apply sim_bind; [kept|intros p].
  apply sim_bind; [destruct (has_error p); [sb|apply sim_import_key]|]. intros [kh p']. repeat sb.
Qed.
Lemma sim_decrypt a w m : sim a w (live_decrypt a m) (decrypt_mime a m).
Proof.
  unfold live_decrypt, decrypt_mime. apply sim_bind; [kept|intros b]. apply sim_bind; [kept|intros _].
  destruct (m_body m) as [|t|t|[|p0 [|p1 [|p2 l]]]]; try apply sim_raise.
  apply sim_bind; [apply sim_plain; destruct (m_body p1); try constructor; destruct (is_ascii _); constructor|intros d].
  sb. apply sim_bind; [kept|]. intros [dec infos]. sb.
Qed.
Lemma sim_gossip a w m date id : sim a w (live_gossip_headers a m date id) (process_gossip_headers a m date id).
Proof.
  unfold live_gossip_headers, process_gossip_headers. apply sim_bind; [kept|intros d]. apply sim_bind; [|intros st; sb].
  apply sim_fold. intros [d1 d2] x. unfold live_gossip_recipient, gossip_recipient. destruct (dget d1 x) as [p|]; [|sb].
  apply sim_bind; [apply sim_import_key|]. intros [kh p']. repeat sb.
Qed.
Lemma sim_incoming a w m ign nodec : sim a w (live_incoming a m ign nodec) (process_incoming a m ign nodec).
Proof.
  unfold live_incoming, process_incoming. cbv zeta. apply sim_bind; [kept|intros d]. apply sim_bind; [kept|intros date].
  apply sim_bind; [kept|intros l]. destruct (ign && has_message l (msg_id_text m)); [sb|].
  apply sim_bind; [apply sim_autocrypt|intros p]. apply sim_bind; [destruct nodec; sb|intros enc].
  apply sim_bind; [|intros g; sb]. destruct enc; [|sb]. apply sim_bind; [apply sim_decrypt|]. intros [dec i].
  apply sim_bind; [apply sim_gossip|intros gp]. repeat sb.
Qed.
Lemma sim_import a w addr kd pref : sim a w (live_import a addr kd pref) (import_keydata_as_autocrypt a addr kd pref).
Proof.
  unfold live_import, import_keydata_as_autocrypt. apply sim_first. intros g Hg. apply sim_bind; [kept|intros kh].
  apply sim_bind; [destruct addr; [sb|]; apply (sim_again a w _ _ g); [exact Hg|]; repeat sb|intros l].
  apply (sim_again a w _ _ g); [exact Hg|]. apply sim_bind; [kept|intros kh1]. apply sim_bind.
  - apply sim_map. intros x. apply sim_bind; [kept|intros now]. apply (sim_again a w _ _ g); [exact Hg|]. repeat sb.
  - intros _. apply (sim_again a w _ _ g); [exact Hg|]. repeat sb.
Qed.
Lemma sim_encrypt a w m to : sim a w (live_encrypt a m to) (encrypt_mime a m to).
Proof.
  unfold live_encrypt, encrypt_mime. apply sim_bind; [kept|intros _]. apply sim_bind; [kept|]. intros [khs clear]. repeat sb.
Qed.
Lemma sim_outgoing a w m : sim a w (live_outgoing a m) (process_outgoing a m).
Proof.
  unfold live_outgoing, process_outgoing. apply sim_bind.
  { apply sim_plain. destruct (hget m (L "ENCRYPT")); [|constructor]. apply allowed_bind; [apply allowed_assert|constructor]. }
  intros [h m1]. cbv zeta. apply sim_bind.
  { destruct (hin m1 (L "Autocrypt")); [sb|]. apply sim_bind; [apply sim_header|intros v; sb]. }
  intros [added m2]. apply sim_bind; [kept|intros b]. apply sim_bind; [|intros m3; sb].
  destruct b; [sb|]. destruct (hget_all m2 (L "From")) as [|f [|f2 l]]; try apply sim_raise.
  apply sim_bind; [kept|intros rec]. destruct (otext_eqb h (Some (L "no"))); [sb|].
  destruct (_ || _); [|destruct (otext_eqb h (Some (L "yes"))); sb].
  apply sim_bind; [apply sim_encrypt|]. intros [em khs]. sb.
Qed.

(** ** Methods *)
Definition on_account (a : text) (m : method) : prog cop outcome :=
  match m with
  | MIncoming m ign nodec => i <- process_incoming a m ign nodec ;; Ret (OIncoming i)
  | MOutgoing m => o <- process_outgoing a m ;; Ret (OOutgoing o)
  | MEncrypt m to => '(em, khs) <- encrypt_mime a m to ;; Ret (OEncrypted em khs)
  | MDecrypt m => '(dm, infos) <- decrypt_mime a m ;; Ret (ODecrypted dm infos)
  | MRecommend addrs reply => r <- recommend a (map Some addrs) reply None ;; Ret (OOptText r)
  | MHeader adr => h <- make_ac_header a adr ;; Ret (OText h)
  | MExportPub kh => b <- export_public_key a kh ;; Ret (OBytes b)
  | MExportSec => b <- export_secret_key a ;; Ret (OBytes b)
  | MImport addr kd pref => r <- import_keydata_as_autocrypt a addr kd pref ;; Ret (OImport r)
  | MPeer addr => let chain := peerstate_chain a addr in l <- perform (CRead chain) ;; Ret (OPeer (view_of chain l))
  | MPeers => l <- get_peername_list a ;; Ret (OTexts l)
  | MOwn => c <- own_config a ;; kh <- own_keyhandle a ;; Ret (OOwn c kh)
  | MModify regex kh bin pref => ch <- change_config a pref regex bin ;; Ret (OMod ch a)
  | MDelete => remove_account a ;;; Ret ONone
  end.
Lemma simw_method a w m : simw a w (call_method a m) (on_account a m).
Proof.
  destruct m; cbn [call_method on_account]; cbv zeta;
    try (apply simw_bind_ret, simw_plain);
    apply sim_simw; (apply sim_bind; [|try (intros [? ?]); try intros ?; repeat sb]); try kept.
  - apply sim_incoming.
  - apply sim_outgoing.
  - apply sim_encrypt.
  - apply sim_decrypt.
  - apply sim_header.
  - apply sim_export_public.
  - apply sim_export_secret.
  - apply sim_import.
Qed.
Lemma on_account_run a m s : WF s -> exists_acct s a -> arun (exec (as_call a m)) s = arun (on_account a m) s.
Proof.
  intros Hw He. destruct m; cbn [as_call exec on_account]; try (rewrite arun_with_account by auto; reflexivity).
  - unfold mod_account. rewrite !arun_bind, arun_get_account by auto. rewrite !arun_bind.
    destruct (arun (change_config _ _ _ _) s) as [s1 [x|e]]; reflexivity.
  - unfold del_account. rewrite !arun_bind, arun_get_account by auto. destruct (arun (remove_account a) s) as [s1 [x|e]]; reflexivity.
Qed.

(** ** Adding an account *)
Definition simN (a : text) {A} (ml : live A) (m : prog cop A) : Prop :=
  forall s, exists c', arun (ml None) s = (fst (arun m s), Ok (c', snd (arun m s))) /\
    good (snd (arun (get_bingpg a) (fst (arun m s)))) c'.
Lemma simN_plain a A (p : prog cop A) : simN a (plain p) p.
Proof. intros s. exists None. rewrite plain_run. split; [reflexivity|left; reflexivity]. Qed.
Lemma simN_bind a A B (p : prog cop A) (f : A -> live B) k :
  (forall x s s', arun p s = (s', Ok x) -> simN a (f x) (k x)) -> simN a (lbind (plain p) f) (bind p k).
Proof.
  intros H s. unfold lbind. rewrite !arun_bind, plain_run. destruct (arun p s) as [s1 [x|e]] eqn:Ep; cbn [fst snd].
  - apply (H x s s1 Ep).
  - exists None. split; [reflexivity|left; reflexivity].
Qed.
Lemma simN_sim a A (ml : live A) m : (forall w, sim a w ml m) -> simN a ml m.
Proof.
  intros H s. destruct (H (snd (arun (get_bingpg a) s)) None s) as [c' [H1 [H2 H3]]].
  - unfold at_w. rewrite get_bingpg_run. reflexivity.
  - left; reflexivity.
  - exists c'. split; [exact H1|]. unfold at_w in H3. rewrite H3. exact H2.
Qed.
Lemma sim_new_key a w kh :
  sim a w (match kh with
         | None =>
           lbind (plain (perform CUuid)) (fun id =>
           lbind (bingpg_of a) (fun g =>
           plain (gen_secret_key g (id ++ L "@random.muacrypt.org"))))
         | Some h =>
           lbind (bingpg_of a) (fun g =>
           lbind (plain (get_secret_keyhandle g h)) (fun r =>
           match r with Some h' => lret h' | None => plain (Raise ValueError) end))
         end)
     (match kh with
         | None =>
           id <- perform CUuid ;;
           g <- get_bingpg a ;;
           gen_secret_key g (id ++ L "@random.muacrypt.org")
         | Some h =>
           g <- get_bingpg a ;;
           r <- get_secret_keyhandle g h ;;
           match r with Some h' => Ret h' | None => Raise ValueError end
         end).
Proof.
  destruct kh as [h|]; [|repeat sb]. sb. apply sim_bind; [kept|]. intros [h'|]; [apply sim_ret|apply sim_raise].
Qed.
Lemma simN_create a regex kh bin mode : simN a (lbind (live_create a regex kh bin mode) (fun _ => lret a)) (create a regex kh bin mode ;;; Ret a).
Proof.
  assert (H : simN a (live_create a regex kh bin mode) (create a regex kh bin mode)).
  { unfold live_create, create. apply simN_bind. intros _ _ _ _. apply simN_bind. intros _ _ _ _. apply simN_sim. intros w.
    apply sim_bind; [apply sim_new_key|intros kh']. repeat sb. }
  intros s. destruct (H s) as [c' [H1 H2]]. exists c'. unfold lbind. rewrite !arun_bind, H1.
  destruct (arun (create a regex kh bin mode) s) as [s1 [x|e]]; cbn [fst snd] in *; auto.
Qed.
Lemma simN_add n regex kh bin mode : simN n (live_add n regex kh bin mode) (add_account n regex kh bin mode).
Proof.
  unfold live_add, add_account. apply simN_bind. intros x s s' Hx. rewrite arun_get_account_nocheck in Hx.
  assert (x = n) as -> by (destruct (isalnum n); congruence). apply simN_bind. intros ex _ _ _.
  destruct ex; [apply simN_plain|apply simN_create].
Qed.

(** ** Runs *)
Definition obj_ok (o : obj) (h : held) : Prop :=
  o_acct o = fst h /\ forall b m, snd h = Some (b, m) -> good (wrapper (fst h) b m) (o_cache o).
Lemma gpg_setting_run s a b m : WF s -> gpg_setting s a = Some (b, m) -> arun (get_bingpg a) s = (s, wrapper a b m).
Proof.
  intros Hw H. unfold gpg_setting in H. destruct (own_of s a) as [[c kh]|] eqn:Eo; [|discriminate H]. injection H as <- <-.
  apply own_of_some in Eo; [|exact Hw]. destruct Eo as [Hc _]. rewrite get_bingpg_run, Hc. reflexivity.
Qed.
Lemma get_account_reachable s n : reachable s -> reachable (fst (arun (get_account n true) s)).
Proof.
  intros Hr. pose proof (reachable_WF s Hr) as Hw. destruct (exists_acct_dec s n) as [He|He].
  - rewrite arun_get_account by auto. exact Hr.
  - rewrite arun_get_account_none by auto. cbn [fst]. pose proof (reachable_step s (APeers n) Hr) as H. cbn [exec] in H.
    rewrite arun_with_account_none in H by auto. exact H.
Qed.
Lemma Forall2_nth {A B} (R : A -> B -> Prop) l1 l2 i : Forall2 R l1 l2 ->
  match nth_error l1 i, nth_error l2 i with Some x, Some y => R x y | None, None => True | _, _ => False end.
Proof. intros H. revert i. induction H; intros [|i]; cbn; auto. apply IHForall2. Qed.
Lemma Forall2_set {A B} (R : A -> B -> Prop) l1 l2 i x y : Forall2 R l1 l2 -> nth_error l2 i = Some y -> R x y -> Forall2 R (set_nth i x l1) l2.
Proof.
  intros H. revert i. induction H as [|a b l1 l2 H1 H2 IH]; intros [|i] Hn Hx; cbn in *; try discriminate Hn.
  - injection Hn as ->. constructor; auto.
  - constructor; auto.
Qed.
Lemma step_same k os hs s : reachable s -> Forall2 obj_ok os hs -> settings_kept [k] hs s ->
  let '(os1, s1, x) := live_step k os s in let '(hs1, s1', x') := fresh_step k hs s in
  s1 = s1' /\ x = x' /\ Forall2 obj_ok os1 hs1 /\ reachable s1'.
Proof.
  intros Hr Hf Hk. pose proof (reachable_WF s Hr) as Hw. destruct k as [n|n regex kh bin mode|i m|c]; cbn [live_step fresh_step].
  - pose proof (get_account_reachable s n Hr) as Hr1. destruct (arun (get_account n true) s) as [s1 [a|e]]; cbn [fst] in *; repeat split; auto.
    apply Forall2_app; [exact Hf|]. constructor; [|constructor]. split; [reflexivity|]. intros b m _. left. reflexivity.
  - destruct (simN_add n regex kh bin mode s) as [c' [H1 H2]]. rewrite H1. cbn [flat exec]. rewrite arun_bind.
    pose proof (reachable_step s (AAdd n regex kh bin mode) Hr) as Hr1. cbn [exec] in Hr1. rewrite arun_bind in Hr1.
    destruct (arun (add_account n regex kh bin mode) s) as [s1 [a|e]] eqn:Ea; cbn [fst snd] in *.
    + change (arun (Ret (OText a)) s1) with (s1, Ok (OText a)) in *. cbn [fst] in *. repeat split; auto.
      apply Forall2_app; [exact Hf|]. constructor; [|constructor].
      assert (a = n) as ->.
      { unfold add_account in Ea. rewrite arun_bind, arun_get_account_nocheck in Ea. destruct (isalnum n); [|discriminate Ea].
        rewrite arun_bind in Ea. destruct (arun (account_exists n) _) as [s2 [ex|e]]; [|discriminate Ea]. destruct ex; [discriminate Ea|].
        rewrite arun_bind in Ea. destruct (arun (create _ _ _ _ _) s2) as [s3 [u|e]]; [|discriminate Ea]. cbn in Ea. congruence. }
      split; [reflexivity|]. cbn [fst snd o_cache]. intros b m Hg. rewrite (gpg_setting_run s1 n b m (reachable_WF s1 Hr1) Hg) in H2. exact H2.
    + repeat split; auto.
  - cbn [settings_kept] in Hk. destruct Hk as [Hk _]. pose proof (Forall2_nth _ _ _ i Hf) as Hn.
    destruct (nth_error os i) as [o|] eqn:Eo, (nth_error hs i) as [[a st]|] eqn:Eh; try contradiction; [|repeat split; auto].
    destruct Hn as [Ha Hg]. cbn [fst snd] in *. destruct Hk as [He Hst]. assert (Hex : exists_acct s a) by (apply has_account_exists; auto).
    rewrite on_account_run by auto.
    assert (Hs : exists b md, st = Some (b, md)).
    { unfold has_account in He. unfold gpg_setting in Hst. destruct (own_of s a) as [[c kh]|]; [|congruence]. eauto. }
    destruct Hs as [b [md ->]]. rewrite Ha. destruct (simw_method a (wrapper a b md) m (o_cache o) s) as [c' [H1 H2]].
    + apply gpg_setting_run; auto.
    + apply Hg. reflexivity.
    + rewrite H1. cbn [flat]. pose proof (reachable_step s (as_call a m) Hr) as Hr1. rewrite on_account_run in Hr1 by auto.
      destruct (arun (on_account a m) s) as [s1 x]; cbn [fst snd] in *. repeat split; auto.
      eapply Forall2_set; eauto. split; [reflexivity|]. intros b0 m0 [= <- <-]. exact H2.
  - pose proof (reachable_step s c Hr) as Hr1. destruct (arun (exec c) s) as [s1 x]; cbn [fst] in *. repeat split; auto.
Qed.
Lemma run_same ks : forall os hs s, reachable s -> Forall2 obj_ok os hs -> settings_kept ks hs s ->
  snd (live_run ks os s) = snd (fresh_run ks hs s) /\ snd (fst (live_run ks os s)) = snd (fst (fresh_run ks hs s)).
Proof.
  induction ks as [|k ks IH]; intros os hs s Hr Hf Hk; [auto|].
  destruct Hk as [Hk1 Hk2]. pose proof (step_same k os hs s Hr Hf) as Hs. cbn [live_run fresh_run].
  destruct (live_step k os s) as [[os1 s1] x]. destruct (fresh_step k hs s) as [[hs1 s1'] x'] eqn:Ef.
  destruct Hs as [-> [-> [Hf1 Hr1]]]. { cbn [settings_kept]. split; [exact Hk1|]. rewrite Ef. exact I. }
  destruct (IH os1 hs1 s1' Hr1 Hf1 Hk2) as [H1 H2].
  destruct (live_run ks os1 s1') as [[os2 s2] xs]. destruct (fresh_run ks hs1 s1') as [[hs2 s2'] xs']. cbn [fst snd] in *.
  subst. auto.
Qed.
Lemma c86 s ks : reachable s -> settings_kept ks [] s ->
  snd (live_run ks [] s) = snd (fresh_run ks [] s) /\ snd (fst (live_run ks [] s)) = snd (fst (fresh_run ks [] s)).
Proof. intros Hr Hk. apply run_same; auto. Qed.

(** ** Nobody modifies or deletes an account *)
Definition kept_now (s : ast) (h : held) : Prop := has_account s (fst h) /\ gpg_setting s (fst h) = snd h.
Lemma kept_after s c a st : reachable s -> deletes a c = false -> modifies a c = false -> kept_now s (a, st) -> kept_now (after s c) (a, st).
Proof.
  intros Hr Hd Hm [He Hg]. cbn [fst snd] in *. unfold kept_now, has_account, gpg_setting in *. cbn [fst snd].
  destruct (own_of s a) as [[cfg kh]|] eqn:Eo; [|congruence]. rewrite (c42_only s c a cfg kh Hr Eo Hd Hm). split; [discriminate|exact Hg].
Qed.
Lemma careful_kept ks : forall hs s, reachable s -> Forall (kept_now s) hs -> Forall careful ks -> settings_kept ks hs s.
Proof.
  induction ks as [|k ks IH]; intros hs s Hr Hh Hc; [exact I|]. inversion Hc as [|? ? Hc1 Hc2]; subst. cbn [settings_kept]. split.
  - destruct k as [| |i m|]; try exact I. destruct (nth_error hs i) as [[a st]|] eqn:Eh; [|exact I].
    apply nth_error_In in Eh. rewrite Forall_forall in Hh. exact (Hh _ Eh).
  - destruct k as [n|n regex kh bin mode|i m|c]; cbn [fresh_step].
    + pose proof (reachable_WF s Hr) as Hw. pose proof (get_account_reachable s n Hr) as Hr1.
      destruct (exists_acct_dec s n) as [He|He].
      * rewrite arun_get_account by auto. apply IH; auto. apply Forall_app. split; [exact Hh|]. constructor; [|constructor].
        split; [apply has_account_exists; auto|reflexivity].
      * rewrite arun_get_account_none in * by auto. cbn [fst] in Hr1. apply IH; auto.
        assert (Hi : inited s = after s (APeers n)). { unfold after. cbn [exec]. rewrite arun_with_account_none by auto. reflexivity. }
        rewrite Hi. eapply Forall_impl; [|exact Hh]. intros [a st] Ha. apply kept_after; auto.
    + pose proof (reachable_step s (AAdd n regex kh bin mode) Hr) as Hr1. pose proof (kept_after s (AAdd n regex kh bin mode)) as Hka. unfold after in Hka.
      destruct (arun (exec (AAdd n regex kh bin mode)) s) as [s1 [x|e]] eqn:Ea; cbn [fst] in *.
      * apply IH; auto. apply Forall_app. split; [eapply Forall_impl; [|exact Hh]; intros [a st] Ha; apply Hka; auto|].
        constructor; [|constructor]. split; [|reflexivity]. cbn [fst].
        destruct (created s (AAdd n regex kh bin mode) n mode x (reachable_WF s Hr) eq_refl) as [cfg [kh' [_ Ho]]];
          [unfold answer; rewrite Ea; reflexivity|]. unfold after in Ho. rewrite Ea in Ho. unfold has_account. cbn [fst] in Ho. congruence.
      * apply IH; auto. eapply Forall_impl; [|exact Hh]. intros [a st] Ha. apply Hka; auto.
    + destruct (nth_error hs i) as [[a st]|] eqn:Eh; [|apply IH; auto].
      pose proof (reachable_step s (as_call a m) Hr) as Hr1. pose proof (kept_after s (as_call a m)) as Hka. unfold after in Hka.
      destruct (arun (exec (as_call a m)) s) as [s1 x]; cbn [fst] in *. apply IH; auto. eapply Forall_impl; [|exact Hh].
      intros [b sb] Hb. apply Hka; auto; destruct m; try reflexivity; contradiction.
    + pose proof (reachable_step s c Hr) as Hr1. pose proof (kept_after s c) as Hka. unfold after in Hka.
      destruct (arun (exec c) s) as [s1 x]; cbn [fst] in *. apply IH; auto. eapply Forall_impl; [|exact Hh].
      intros [b sb] Hb. destruct (Hc1 b) as [H1 H2]. apply Hka; auto.
Qed.
Lemma c86_careful s ks : reachable s -> Forall careful ks ->
  snd (live_run ks [] s) = snd (fresh_run ks [] s) /\ snd (fst (live_run ks [] s)) = snd (fst (fresh_run ks [] s)).
Proof. intros Hr Hc. apply c86; [exact Hr|]. apply careful_kept; auto. Qed.
End LiveProofs.
