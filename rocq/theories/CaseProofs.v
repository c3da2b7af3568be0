(** Capitalization makes no difference (C75). *)
From Verif Require Import Base PyStr Base64 Env Prog Chain Gpg Mime States Recommendation Account Cmdline Bot Fs Api Spec Obs PeerSpec RecSpec CaseSpec.

Section CaseProofs.
Context {E : Env}.

(** ** Letters *)
Lemma letter_lower c d : same_letter c d -> ascii_lower_cp c = ascii_lower_cp d.
Proof.
  intros [->|[k [Hk [[-> ->]|[-> ->]]]]]; [reflexivity| |]; unfold ascii_lower_cp;
    repeat match goal with |- context [N.leb ?a ?b] => destruct (N.leb_spec a b) end; cbn [andb]; lia.
Qed.
Lemma ascii_is t : ascii t <-> is_ascii t = true.
Proof. unfold ascii, is_ascii, is_ascii_cp. rewrite forallb_forall, Forall_forall. split; intros H c Hc; apply N.ltb_lt, H, Hc. Qed.
Lemma same_case_lower x y : same_case x y -> lower x = lower y.
Proof.
  intros [Hx [Hy H]]. unfold lower. apply ascii_is in Hx, Hy. rewrite Hx, Hy. clear Hx Hy. induction H as [|c d x y Hc H IH]; cbn [map]; [reflexivity|].
  rewrite IH, (letter_lower c d Hc). reflexivity.
Qed.
Lemma same_header_lower h h' : same_header h h' -> lower (fst h) = lower (fst h') /\ snd h = snd h'.
Proof. intros [[H|H] H2]; [rewrite H; auto|]. split; [apply same_case_lower, H|exact H2]. Qed.

(** for the examples *)
Definition letter_b (c d : N) : bool :=
  N.eqb c d || (N.leb 65 c && N.ltb c 91 && N.eqb d (c + 32)) || (N.leb 97 c && N.ltb c 123 && N.eqb c (d + 32)).
Fixpoint all2 (x y : text) : bool := match x, y with [], [] => true | c :: x, d :: y => letter_b c d && all2 x y | _, _ => false end.
Lemma letter_b_spec c d : letter_b c d = true -> same_letter c d.
Proof.
  unfold letter_b. rewrite !orb_true_iff, !andb_true_iff, !N.eqb_eq, !N.leb_le, !N.ltb_lt. intros [[H|H]|H]; [left; exact H| |]; right.
  - exists (c - 65)%N. lia.
  - exists (c - 97)%N. lia.
Qed.
Lemma same_case_b x y : is_ascii x && is_ascii y && all2 x y = true -> same_case x y.
Proof.
  rewrite !andb_true_iff. intros [[H1 H2] H3]. apply ascii_is in H1, H2. split; [exact H1|split; [exact H2|]]. clear H1 H2.
  revert y H3. induction x as [|c x IH]; intros [|d y] H; try discriminate H; constructor; cbn [all2] in H; apply andb_true_iff in H as [H1 H2];
    [apply letter_b_spec, H1|apply IH, H2].
Qed.

(** ** Header fields *)
Lemma same_hget m m' n : same_mail m m' -> hget m n = hget m' n.
Proof.
  intros [h h' b b' H _]. unfold hget. cbn [m_headers]. induction H as [|[k v] [k' v'] h h' Hh H IH]; cbn [hget_list]; [reflexivity|].
  apply same_header_lower in Hh as [H1 H2]. cbn [fst snd] in *. rewrite H1, IH, H2. reflexivity.
Qed.
Lemma same_hget_all m m' n : same_mail m m' -> hget_all m n = hget_all m' n.
Proof.
  intros [h h' b b' H _]. unfold hget_all. cbn [m_headers]. induction H as [|[k v] [k' v'] h h' Hh H IH]; cbn [filter map]; [reflexivity|].
  apply same_header_lower in Hh as [H1 H2]. cbn [fst snd] in *. rewrite H1. destruct (text_eqb _ _); cbn [map snd]; rewrite IH, ?H2; reflexivity.
Qed.
Lemma same_content_type m m' : same_mail m m' -> get_content_type m = get_content_type m'.
Proof. intros H. unfold get_content_type. rewrite (same_hget m m' _ H). reflexivity. Qed.
Lemma same_targets m m' : same_mail m m' -> get_target_fulladr m = get_target_fulladr m'.
Proof. intros H. unfold get_target_fulladr. rewrite !(same_hget_all m m' _ H). reflexivity. Qed.
Lemma same_emails m m' : same_mail m m' -> get_target_emailadr m = get_target_emailadr m'.
Proof. intros H. unfold get_target_emailadr. rewrite (same_targets m m' H). reflexivity. Qed.
Lemma same_delivered m m' f : same_mail m m' -> get_delivered_to m f = get_delivered_to m' f.
Proof. intros H. unfold get_delivered_to. rewrite (same_hget m m' _ H). reflexivity. Qed.
Lemma same_id m m' : same_mail m m' -> msg_id_text m = msg_id_text m'.
Proof. intros H. unfold msg_id_text. rewrite (same_hget m m' _ H). reflexivity. Qed.
Lemma same_parse m m' l : same_mail m m' -> parse_one_ac_header_from_msg m l = parse_one_ac_header_from_msg m' l.
Proof. intros H. unfold parse_one_ac_header_from_msg. rewrite (same_content_type m m' H), !(same_hget_all m m' _ H). reflexivity. Qed.
Lemma same_gossip m m' : same_mail m m' -> get_gossip_headers_from_msg m = get_gossip_headers_from_msg m'.
Proof. intros H. unfold get_gossip_headers_from_msg. rewrite (same_hget_all m m' _ H). reflexivity. Qed.
Lemma same_mail_refl m : same_mail m m.
Proof. destruct m as [h b]. constructor; [|constructor]. induction h; constructor; [|assumption]. split; [left|]; reflexivity. Qed.
Lemma same_encrypted m m' : same_mail m m' -> is_encrypted m = is_encrypted m'.
Proof.
  intros H. unfold is_encrypted. rewrite (same_content_type m m' H). destruct (text_eqb _ _); [|reflexivity].
  destruct H as [h h' b b' _ Hb]. cbn [m_body]. destruct Hb as [b|l l' Hl]; [reflexivity|].
  destruct Hl as [|p p' l l' H1 Hl]; [reflexivity|]. destruct Hl as [|q q' l l' H2 Hl]; [reflexivity|]. destruct Hl as [|? ? ? ? ? ?]; [|reflexivity].
  rewrite (same_content_type p p' H1), (same_content_type q q' H2). reflexivity.
Qed.
Lemma same_hadd m m' k k' v : same_mail m m' -> same_header (k, v) (k', v) -> same_mail (hadd m k v) (hadd m' k' v).
Proof. intros [h h' b b' Hh Hb] Hk. constructor; [|exact Hb]. apply Forall2_app; [exact Hh|]. constructor; [exact Hk|constructor]. Qed.
Lemma same_transfer m m' n : same_mail m m' -> same_mail (transfer_non_content_headers m n) (transfer_non_content_headers m' n).
Proof.
  intros [h h' b b' H _]. unfold transfer_non_content_headers. cbn [m_headers]. generalize (same_mail_refl n). generalize n at 2 4. revert n.
  induction H as [|[k v] [k' v'] h h' Hh H IH]; intros n n' Hn; cbn [fold_left]; [exact Hn|]. apply IH.
  pose proof (same_header_lower _ _ Hh) as [H1 H2]. cbn [fst snd] in *. subst v'. unfold is_ignored_header. rewrite H1. destruct (mem_text _ _); [exact Hn|].
  apply same_hadd; assumption.
Qed.

(** ** Programs with the same runs *)
Definition peq {A} (p q : prog cop A) : Prop := forall s, arun p s = arun q s.
Lemma peq_refl {A} (p : prog cop A) : peq p p. Proof. intros s. reflexivity. Qed.
Lemma peq_bind {A B} (p q : prog cop A) (f g : A -> prog cop B) : peq p q -> (forall a, peq (f a) (g a)) -> peq (bind p f) (bind q g).
Proof. intros H1 H2 s. unfold arun in *. rewrite !run_bind. specialize (H1 s). unfold arun in H1. rewrite H1. destruct (run _ q s) as [s1 [a|e]]; [apply H2|reflexivity]. Qed.
Lemma peq_bind1 {A B} (p : prog cop A) (f g : A -> prog cop B) : (forall a, peq (f a) (g a)) -> peq (bind p f) (bind p g).
Proof. apply peq_bind, peq_refl. Qed.
Lemma peq_catch {A} (p q : prog cop A) h : peq p q -> peq (catch p h) (catch q h).
Proof. intros H s. unfold arun in *. rewrite !run_catch. specialize (H s). unfold arun in H. rewrite H. reflexivity. Qed.

(** decryption gives the same keys and related mails *)
Definition same_result {A B} (R : A -> B -> Prop) (x : result A) (y : result B) : Prop :=
  match x, y with Ok a, Ok b => R a b | Err e, Err e' => e = e' | _, _ => False end.
Lemma same_decrypt a m m' s : same_mail m m' ->
  fst (arun (decrypt_mime a m) s) = fst (arun (decrypt_mime a m') s) /\
  same_result (fun x y => same_mail (fst x) (fst y) /\ snd x = snd y) (snd (arun (decrypt_mime a m) s)) (snd (arun (decrypt_mime a m') s)).
Proof.
  intros H. unfold decrypt_mime, arun. rewrite (same_encrypted m m' H). rewrite !run_bind. destruct (is_encrypted m') as [b|e]; cbn [lift run]; [|auto with core].
  2: { split; reflexivity. }
  rewrite !run_bind. destruct b; cbn [assert_ run]; [|split; reflexivity].
  assert (Hp : forall p p' s0 (K : bytes -> prog cop (msg * list (text * text))) K', same_body (m_body p) (m_body p') ->
     (forall d s1, fst (run (@astep E) (K d) s1) = fst (run (@astep E) (K' d) s1) /\
        same_result (fun x y => same_mail (fst x) (fst y) /\ snd x = snd y) (snd (run (@astep E) (K d) s1)) (snd (run (@astep E) (K' d) s1))) ->
     let P q := match m_body q with PBytes t | PStr t => if is_ascii t then Ret t else Raise UnicodeError | PNone | PParts _ => @Raise cop bytes AttributeError end in
     fst (run (@astep E) (bind (P p) K) s0) = fst (run (@astep E) (bind (P p') K') s0) /\
     same_result (fun x y => same_mail (fst x) (fst y) /\ snd x = snd y) (snd (run (@astep E) (bind (P p) K) s0)) (snd (run (@astep E) (bind (P p') K') s0))).
  { intros p p' s0 K K' Hb HK P. subst P. cbv beta. destruct Hb as [b|l l' _]; [|split; reflexivity].
    destruct b as [|t|t|l]; try (split; reflexivity); destruct (is_ascii t); try (split; reflexivity); cbn [bind]; apply HK. }
  assert (HK : forall d s1, 
     fst (run (@astep E) (g <- get_bingpg a ;; '(dec, infos) <- gpg_decrypt g d ;; Ret (transfer_non_content_headers m (parse_bytes dec), infos)) s1) =
     fst (run (@astep E) (g <- get_bingpg a ;; '(dec, infos) <- gpg_decrypt g d ;; Ret (transfer_non_content_headers m' (parse_bytes dec), infos)) s1) /\
     same_result (fun x y => same_mail (fst x) (fst y) /\ snd x = snd y) 
     (snd (run (@astep E) (g <- get_bingpg a ;; '(dec, infos) <- gpg_decrypt g d ;; Ret (transfer_non_content_headers m (parse_bytes dec), infos)) s1))
     (snd (run (@astep E) (g <- get_bingpg a ;; '(dec, infos) <- gpg_decrypt g d ;; Ret (transfer_non_content_headers m' (parse_bytes dec), infos)) s1))).
  { intros d s1. rewrite !run_bind. destruct (run _ (get_bingpg a) s1) as [s2 [g|e]]; [|split; reflexivity]. rewrite !run_bind.
    destruct (run _ (gpg_decrypt g d) s2) as [s3 [[dec infos]|e]]; [|split; reflexivity]. cbn [run fst snd same_result]. split; [reflexivity|].
    split; [apply same_transfer, H|reflexivity]. }
  destruct H as [h h' b b' Hh Hb]. cbn [m_body]. destruct Hb as [b|l l' Hl].
  - destruct b as [|t|t|l]; try (split; reflexivity). destruct l as [|p [|q [|? ?]]]; try (split; reflexivity).
    apply Hp; [constructor|apply HK].
  - destruct Hl as [|p p' l l' H1 Hl]; [split; reflexivity|]. destruct Hl as [|q q' l l' H2 Hl]; [split; reflexivity|]. destruct Hl as [|? ? ? ? ? ?]; [|split; reflexivity].
    apply Hp; [|apply HK]. destruct H2; assumption.
Qed.
Lemma same_decrypt_bind a m m' {B} (f g : msg * list (text * text) -> prog cop B) : same_mail m m' ->
  (forall d d' i, same_mail d d' -> peq (f (d, i)) (g (d', i))) -> peq (bind (decrypt_mime a m) f) (bind (decrypt_mime a m') g).
Proof.
  intros H Hf s. destruct (same_decrypt a m m' s H) as [H1 H2]. unfold arun in *. rewrite !run_bind.
  destruct (run _ (decrypt_mime a m) s) as [s1 [[d i]|e]], (run _ (decrypt_mime a m') s) as [s1' [[d' i']|e']]; cbn [fst snd same_result] in *; try contradiction.
  - destruct H2 as [H2 ->]. subst s1'. apply Hf, H2.
  - subst. reflexivity.
Qed.
Lemma same_incoming a m m' i n : same_mail m m' -> peq (process_incoming a m i n) (process_incoming a m' i n).
Proof.
  intros H. unfold process_incoming. cbv zeta. rewrite !(same_hget m m' _ H), (same_id m m' H). apply peq_bind1. intros d. apply peq_bind1. intros date.
  apply peq_bind1. intros l. destruct (i && has_message l (msg_id_text m')); [apply peq_refl|].
  unfold process_autocrypt_header. rewrite (same_parse m m' _ H), (same_encrypted m m' H). apply peq_bind1. intros p. apply peq_bind1. intros enc.
  apply peq_bind; [|intros; apply peq_refl]. destruct enc; [|apply peq_refl].
  apply same_decrypt_bind; [exact H|]. intros dm dm' infos Hd. apply peq_bind; [|intros; apply peq_refl].
  unfold process_gossip_headers. rewrite (same_gossip dm dm' Hd), (same_emails dm dm' Hd). apply peq_refl.
Qed.
Lemma same_matching m m' : same_mail m m' -> peq (get_matching_account m) (get_matching_account m').
Proof.
  intros H. unfold get_matching_account. rewrite (same_emails m m' H), (same_delivered m m' _ H). apply peq_refl.
Qed.
Lemma same_scan r now mt m m' : same_mail m m' -> peq (scan_one r now (mt, m)) (scan_one r now (mt, m')).
Proof.
  intros H. unfold scan_one. rewrite !(same_hget m m' _ H). destruct (is_too_old now mt); [apply peq_refl|]. destruct (hget m' (L "message-id")); [|apply peq_refl].
  apply peq_bind1. intros d. apply peq_bind1. intros date. destruct (is_too_old now date); [apply peq_refl|].
  apply peq_bind; [apply peq_catch, peq_bind; [apply same_matching, H|intros; apply peq_refl]|]. intros [a|]; [|apply peq_refl].
  apply peq_bind; [apply peq_catch, peq_bind; [apply same_incoming, H|intros; apply peq_refl]|]. intros; apply peq_refl.
Qed.
Lemma same_bot fb body m m' : same_mail m m' -> peq (bot_reply fb body m) (bot_reply fb body m').
Proof.
  intros H. unfold bot_reply. rewrite (same_delivered m m' _ H). apply peq_bind1. intros delivto. apply peq_bind1. intros [a|]; [|apply peq_refl].
  apply peq_bind; [apply same_incoming, H|]. intros [r|]; [|apply peq_refl]. rewrite (same_content_type m m' H), !(same_hget m m' _ H), (same_targets m m' H).
  apply peq_bind; [|intros; apply peq_refl]. destruct (text_eqb _ _); [|apply peq_refl]. apply same_decrypt_bind; [exact H|]. intros; apply peq_refl.
Qed.
Theorem c75_headers : forall s c c', same_call c c' -> answer s c = answer s c' /\ after s c = after s c'.
Proof.
  intros s c c' Hc. assert (Hp : peq (exec c) (exec c')).
  { destruct Hc as [a m m' i n H|a m m' r n H|r fs fs' H|m m' H|fb body m m' H]; cbn [exec].
    - unfold with_account. apply peq_bind1. intros x. apply peq_bind; [apply same_incoming, H|intros; apply peq_refl].
    - apply peq_bind; [|intros; apply peq_refl]. unfold cli_process_incoming. apply peq_bind.
      + destruct a; [apply peq_refl|apply same_matching, H].
      + intros x. apply peq_bind; [apply same_incoming, H|intros; apply peq_refl].
    - apply peq_bind; [|intros; apply peq_refl]. unfold cli_scandir. apply peq_bind1. intros now. induction H as [|[mt m] [mt' m'] fs fs' [H1 H2] H IH]; cbn [mapM]; [apply peq_refl|].
      cbn [fst snd] in *. subst mt'. apply peq_bind; [apply same_scan, H2|]. intros x. apply peq_bind; [exact IH|intros; apply peq_refl].
    - apply peq_bind; [apply same_matching, H|intros; apply peq_refl].
    - apply peq_bind; [apply same_bot, H|intros; apply peq_refl]. }
  unfold answer, after. rewrite (Hp s). split; reflexivity.
Qed.

(** ** Addresses *)
Lemma same_norm x y : same_case (parseaddr x) (parseaddr y) -> norm x = norm y.
Proof. intros H. unfold norm, parse_email_addr. apply same_case_lower, H. Qed.
Theorem c75_peer : forall s a x y, same_case (parseaddr x) (parseaddr y) -> peer_of s a x = peer_of s a y.
Proof. intros s a x y H. apply same_norm in H. unfold peer_of, answer. cbn [exec]. unfold peerstate_chain. unfold norm in H. rewrite H. reflexivity. Qed.
Theorem c75_recommend : forall s a xs ys reply, Forall2 (fun x y => same_case (parseaddr x) (parseaddr y)) xs ys ->
  answer s (ARecommend a xs reply) = answer s (ARecommend a ys reply).
Proof.
  intros s a xs ys reply H. assert (Hm : map parse_email_addr (map Some xs) = map parse_email_addr (map Some ys)).
  { induction H as [|x y xs ys Hx H IH]; cbn [map]; [reflexivity|]. apply same_norm in Hx. unfold norm in Hx. rewrite Hx, IH. reflexivity. }
  unfold answer. cbn [exec]. unfold recommend, rec_peers. rewrite Hm. reflexivity.
Qed.
Theorem c75_import : forall s a x y k p, same_case (parseaddr x) (parseaddr y) ->
  answer s (AImport a (Some x) k p) = answer s (AImport a (Some y) k p) /\ after s (AImport a (Some x) k p) = after s (AImport a (Some y) k p).
Proof.
  intros s a x y k p H. apply same_norm in H. unfold norm in H. unfold answer, after. cbn [exec]. unfold import_keydata_as_autocrypt. rewrite H. split; reflexivity.
Qed.
Theorem c75_encrypt : forall s a m xs ys, Forall2 (fun x y => same_case (parseaddr x) (parseaddr y)) xs ys ->
  answer s (AEncrypt a m xs) = answer s (AEncrypt a m ys) /\ after s (AEncrypt a m xs) = after s (AEncrypt a m ys).
Proof.
  intros s a m xs ys H. assert (Hm : map (fun t => parse_email_addr (Some t)) xs = map (fun t => parse_email_addr (Some t)) ys /\ nonempty xs = nonempty ys).
  { split; [|destruct H; reflexivity]. induction H as [|x y xs ys Hx H IH]; cbn [map]; [reflexivity|]. apply same_norm in Hx. unfold norm in Hx. rewrite Hx, IH. reflexivity. }
  destruct Hm as [H1 H2]. unfold answer, after. cbn [exec]. unfold encrypt_mime. rewrite H1, H2. split; reflexivity.
Qed.
End CaseProofs.
