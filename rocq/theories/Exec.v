(** Every API call makes only guarded steps, within a scope that depends on the call. *)
From Verif Require Import Base PyStr Env Prog Chain Gpg Mime States Recommendation Account Cmdline Bot Fs Api Steps StepFacts Spec PeerSpec.

Section Exec.
Context {E : Env}.

(** ** Stability of invariants *)
Definition stable (I : ast -> Prop) (Sc : label -> Prop) : Prop :=
  forall s l, WF s -> guard s l -> Sc l -> I s -> I (step l s).

Lemma inv_label {A} (I : ast -> Prop) (Sc : label -> Prop) l (p : prog cop A) (Q : A -> Prop) :
  stable I Sc -> Sc l -> (forall s, WF s -> I s -> guard s l) ->
  (forall s, WF s -> I s -> fst (arun p s) = step l s /\ forall a, snd (arun p s) = Ok a -> Q a) ->
  (forall s, atomic p s) ->
  inv I Sc p Q.
Proof.
  intros HS Hl Hg Hp Hat s Hw Hs. destruct (Hp s Hw Hs) as [H1 H2].
  enough (Hend : ends_well Sc p (fun a s => I s /\ Q a) I s) by (split; [exact Hend|eapply atomic_stops; [apply Hat|exact Hend]]).
  exists [l]. rewrite H1. split; [|split; [|split]].
  - constructor; [auto | constructor].
  - auto.
  - apply step_WF; auto.
  - destruct (snd (arun p s)); [split|]; auto.
Qed.

(** context while account [a] with configuration [c] is at work *)
Definition ctx (a : text) (c : cfg_entry) (k : nat) (s : ast) : Prop :=
  config_of s a = Some c /\ k <= a_tick s.

Definition not_own (a : text) (l : label) : Prop := ~ writes l (own_chain a).

Lemma ctx_stable a c k (Sc : label -> Prop) : (forall l, Sc l -> not_own a l) -> stable (ctx a c k) Sc.
Proof.
  intros H s l Hw Hg Hl [H1 H2]. split.
  - unfold config_of. rewrite step_frame; auto. apply H. exact Hl.
  - pose proof (step_tick_mono s l). lia.
Qed.

Lemma inv_weaken_I {A} (I J : ast -> Prop) (Sc : label -> Prop) (p : prog cop A) (Q : A -> Prop) :
  (forall s, WF s -> I s <-> J s) -> inv J Sc p Q -> inv I Sc p Q.
Proof.
  intros H Hp s Hw Hs. destruct (Hp s Hw) as [[ls [H1 [H2 [H3 H4]]]] Hst]; [apply H; auto|]. split; [|exact Hst].
  exists ls. split; [exact H1|]. split; [exact H2|]. split; [exact H3|].
  destruct (snd (arun p s)); [destruct H4; split; auto|]; apply H; auto.
Qed.

Lemma ctx_cfg a c k s : ctx a c k s -> config_of s a = Some c. Proof. intros [H _]; exact H. Qed.
Ltac gl lem := eapply lem; first [eassumption | apply ctx_cfg | apply ctx_stable; assumption].

(** ** gpg *)
Definition sc_gpg (a : text) (l : label) : Prop :=
  match l with LGpg b _ _ _ => b = a | _ => False end.

Section Gpg.
Variables (I : ast -> Prop) (Sc : label -> Prop) (a : text) (c : cfg_entry) (g : bingpg).
Hypothesis Ha : isalnum a = true.
Hypothesis HI : forall s, I s -> config_of s a = Some c.
Hypothesis Hg : made_for g c a.
Hypothesis HSt : stable I Sc.
Hypothesis HSc : forall l, sc_gpg a l -> Sc l.

Lemma inv_gpg_outerr argv inp tmp strict dec : gpg_cmd g argv inp tmp ->
  inv I Sc (gpg_outerr g argv inp tmp strict dec) (fun _ => True).
Proof.
  intros Hc. unfold gpg_outerr.
  apply inv_bind with (Q1 := fun _ => True).
  - apply inv_label with (l := LGpg a (full_argv g argv) inp tmp); auto.
    + apply HSc. reflexivity.
    + intros s Hw Hs. split; [exact Ha|]. exists g, c, argv. auto.
    + intros s Hw Hs. unfold step, step_prog, arun, full_argv. cbn [perform bind run].
      destruct (astep _ s) as [s1 r]. auto.
    + intros s. apply atomic_perform.
  - intros r _. destruct (Z.eqb _ _); [apply inv_raise|].
    destruct (utf8 _); [|apply inv_raise].
    destruct (if dec then _ else _); [|apply inv_raise].
    destruct (_ || _); [apply inv_raise | apply inv_ret; exact Logic.I].
Qed.

Lemma inv_parse_list args t0 t1 : gpg_cmd g args None None ->
  inv I Sc (parse_list g args t0 t1) (fun _ => True).
Proof.
  intros Hc. unfold parse_list. eapply inv_bind; [apply inv_gpg_outerr; auto|].
  intros [out err] _. apply inv_lift; auto.
Qed.
Lemma inv_list_sec kh : inv I Sc (list_secret_keyinfos g kh) (fun _ => True).
Proof. apply inv_parse_list. constructor. Qed.
Lemma inv_list_pub kh : inv I Sc (list_public_keyinfos g kh) (fun _ => True).
Proof. apply inv_parse_list. constructor. Qed.
Lemma inv_get_secret_keyhandle kh : inv I Sc (get_secret_keyhandle g kh) (fun _ => True).
Proof. unfold get_secret_keyhandle. eapply inv_bind; [apply inv_list_sec|]. intros l _. apply inv_ret; exact Logic.I. Qed.
Lemma inv_find_keyhandle err : inv I Sc (find_keyhandle g err) (fun _ => True).
Proof.
  unfold find_keyhandle. destruct (search_key err); [|apply inv_raise].
  destruct (Nat.leb _ _); [|apply inv_ret; exact Logic.I].
  eapply inv_bind; [apply inv_list_pub|]. intros l _. destruct (find _ l); [apply inv_ret; exact Logic.I | apply inv_raise].
Qed.
Lemma inv_gen_secret_key k : inv I Sc (gen_secret_key g (random_address k)) (fun _ => True).
Proof.
  unfold gen_secret_key, version_known. eapply inv_bind; [apply inv_lift with (Q := fun sp => encode_utf8 (key_spec (random_address k)) = Ok sp); auto|]. intros sp Hsp. eapply inv_bind; [apply inv_lift with (Q := fun _ => True); auto|]. intros v _. eapply inv_bind; [apply inv_gpg_outerr; econstructor; exact Hsp|].
  intros [out err] _. apply inv_find_keyhandle.
Qed.
Lemma inv_get_public_keydata kh armor : inv I Sc (get_public_keydata g kh armor) (fun _ => True).
Proof.
  unfold get_public_keydata. eapply inv_bind; [apply inv_gpg_outerr; constructor|].
  intros [out err] _. apply inv_ret; exact Logic.I.
Qed.
Lemma inv_get_secret_keydata kh armor : inv I Sc (get_secret_keydata g kh armor) (fun _ => True).
Proof.
  unfold get_secret_keydata, version_known. eapply inv_bind; [apply inv_lift with (Q := fun _ => True); auto|]. intros v _. eapply inv_bind; [apply inv_gpg_outerr; constructor|].
  intros [out err] _. apply inv_ret; exact Logic.I.
Qed.
Lemma inv_gpg_encrypt data rs sk : inv I Sc (gpg_encrypt g data rs sk) (fun _ => True).
Proof.
  unfold gpg_encrypt, version_known. eapply inv_bind; [apply inv_lift with (Q := fun _ => True); auto|]. intros v _. eapply inv_bind; [apply inv_gpg_outerr; constructor|].
  intros [out err] _. apply inv_ret; exact Logic.I.
Qed.
Lemma inv_gpg_decrypt data : inv I Sc (gpg_decrypt g data) (fun _ => True).
Proof.
  unfold gpg_decrypt, version_known. eapply inv_bind; [apply inv_lift with (Q := fun _ => True); auto|]. intros v _. eapply inv_bind; [apply inv_gpg_outerr; constructor|].
  intros [out err] _. eapply inv_bind; [apply inv_lift with (Q := fun _ => True); auto|]. intros; apply inv_ret; exact Logic.I.
Qed.
Lemma inv_import_keydata kd m : inv I Sc (import_keydata g kd m) (fun _ => True).
Proof.
  unfold import_keydata. eapply inv_bind; [apply inv_gpg_outerr; constructor|].
  intros [out err] _. eapply inv_bind; [apply inv_find_keyhandle|]. intros kh _.
  destruct m; [|apply inv_ret; exact Logic.I].
  eapply inv_bind; [apply inv_get_public_keydata|]. intros mini _.
  eapply inv_bind; [apply inv_gpg_outerr; constructor|]. intros [o e] _.
  eapply inv_bind; [apply inv_gpg_outerr; constructor|]. intros [o2 e2] _.
  eapply inv_bind; [apply inv_find_keyhandle|]. intros kh2 _.
  eapply inv_bind; [apply inv_assert|]. intros; apply inv_ret; exact Logic.I.
Qed.
End Gpg.

(** ** Reading own settings *)
Section Acct.
Variables (Sc : label -> Prop) (a : text) (c : cfg_entry) (k : nat).
Hypothesis Ha : isalnum a = true.
Hypothesis HQ : forall l, Sc l -> not_own a l.
Hypothesis HSc : forall l, sc_gpg a l -> Sc l.
Let I := ctx a c k.
Let HSt : stable I Sc := ctx_stable a c k Sc HQ.

Lemma inv_own_config : inv I Sc (own_config a) (fun c' => c' = c).
Proof.
  unfold own_config. apply inv_bind with (Q1 := fun l => latest_config l = Some c).
  - apply inv_read. intros s _ [H _]. exact H.
  - intros l ->. apply inv_ret. reflexivity.
Qed.
Lemma inv_own_keyhandle : inv I Sc (own_keyhandle a) (fun _ => True).
Proof.
  unfold own_keyhandle. apply inv_bind with (Q1 := fun _ => True).
  - apply inv_read. auto.
  - intros l _. destruct (latest_keygen l); [apply inv_ret; exact Logic.I | apply inv_raise].
Qed.
Lemma mk_bingpg_home h p g : mk_bingpg h p = Ok g -> gp_home g = h.
Proof. unfold mk_bingpg. destruct (find_executable p); [|discriminate]. destruct (match h with None => _ | Some _ => _ end); [|discriminate]. intros [= <-]. reflexivity. Qed.
Lemma mk_bingpg_made h p g : mk_bingpg h p = Ok g -> gp_home g = h /\ find_executable p = Some (gp_path g).
Proof. intros H. split; [eapply mk_bingpg_home; eauto|]. revert H. unfold mk_bingpg. destruct (find_executable p); [|discriminate]. destruct (match h with None => _ | Some _ => _ end); [|discriminate]. intros [= <-]. reflexivity. Qed.
Lemma inv_get_bingpg : inv I Sc (get_bingpg a) (fun g => made_for g c a).
Proof.
  unfold get_bingpg. eapply inv_bind; [apply inv_own_config|]. intros c' ->. unfold made_for, home_of.
  destruct (nonempty _); [|apply inv_raise]. cbn [negb].
  destruct (text_eqb _ _); [apply inv_lift; intros g; apply mk_bingpg_made|].
  destruct (text_eqb _ _); [apply inv_lift; intros g; apply mk_bingpg_made|]. apply inv_raise.
Qed.

Lemma inv_make_ac_header e : inv I Sc (make_ac_header a e) (fun _ => True).
Proof.
  unfold make_ac_header. eapply inv_bind; [apply inv_get_bingpg|]. intros g Hg.
  eapply inv_bind; [apply inv_own_keyhandle|]. intros kh _.
  eapply inv_bind; [gl inv_get_public_keydata|]. intros kd _.
  eapply inv_bind; [apply inv_own_config|]. intros c' _. apply inv_lift; auto.
Qed.
Lemma inv_export_public_key kh : inv I Sc (export_public_key a kh) (fun _ => True).
Proof.
  unfold export_public_key. apply inv_bind with (Q1 := fun _ => True).
  - destruct kh; [apply inv_ret; exact Logic.I | apply inv_own_keyhandle].
  - intros h _. eapply inv_bind; [apply inv_get_bingpg|]. intros g Hg.
    gl inv_get_public_keydata.
Qed.
Lemma inv_export_secret_key : inv I Sc (export_secret_key a) (fun _ => True).
Proof.
  unfold export_secret_key. eapply inv_bind; [apply inv_get_bingpg|]. intros g Hg.
  eapply inv_bind; [apply inv_own_keyhandle|]. intros kh _.
  gl inv_get_secret_keydata.
Qed.

Lemma inv_import_key p : inv I Sc (import_key a p)
  (fun r => p_pref (snd r) = p_pref p /\ p_keydata (snd r) = p_keydata p /\ p_addr (snd r) = p_addr p /\ said c a (p_keydata p) (fst r)).
Proof.
  unfold import_key. eapply inv_bind; [apply inv_get_bingpg|]. intros g Hg.
  destruct (p_keydata p) as [kd|] eqn:Ek; [|apply inv_raise].
  apply inv_catch.
  - eapply inv_bind; [apply inv_result; gl inv_import_keydata|]. intros kh [_ [s1 [_ Hs1]]]. apply inv_ret. repeat split; auto.
    cbn [fst said]. exists g, kd. split; [exact Hg|]. split; [reflexivity|]. left. exists s1. exact Hs1.
  - intros e q. destruct e; try discriminate. intros [= <-]. apply inv_ret. repeat split; auto.
Qed.

Lemma inv_decrypt_mime m : inv I Sc (decrypt_mime a m)
  (fun r => is_encrypted m = Ok true /\ exists dec, opens a m dec /\ fst r = transfer_non_content_headers m (parse_bytes dec)).
Proof.
  unfold decrypt_mime.
  eapply inv_bind; [apply inv_lift with (Q := fun b => is_encrypted m = Ok b); auto|]. intros b Hb.
  eapply inv_bind; [apply inv_assert|]. intros [] Hbt.
  destruct (m_body m) as [| | |[|x [|p1 [|]]]] eqn:Eb; try apply inv_raise.
  apply inv_bind with (Q1 := fun d => cipher_of m = Some d).
  - unfold cipher_of. rewrite Eb. destruct (m_body p1) as [|t|t|]; try apply inv_raise;
      (destruct (is_ascii t); [apply inv_ret; reflexivity | apply inv_raise]).
  - intros d Hd. eapply inv_bind; [apply inv_result; apply inv_get_bingpg|]. intros g [Hg [s1 [_ Hs1]]].
    eapply inv_bind; [apply inv_result; gl inv_gpg_decrypt|]. intros [dec infos] [_ [s2 [_ Hs2]]].
    apply inv_ret. subst b. split; [exact Hb|]. simpl. exists dec. split; [|reflexivity].
    exists s1, g, d, s2, infos. auto.
Qed.

Lemma inv_encrypt_recipient st x : inv I Sc (encrypt_recipient a st x) (fun _ => True).
Proof.
  unfold encrypt_recipient. destruct st as [khs clear].
  eapply inv_bind; [apply inv_read with (Q := fun _ => True); auto|]. intros l _.
  destruct (nonempty _); cbn [negb].
  - eapply inv_bind; [apply inv_lift with (Q := fun _ => True); auto|]. intros; apply inv_ret; exact Logic.I.
  - eapply inv_bind; [apply inv_own_config|]. intros c' ->.
    eapply inv_bind; [apply inv_lift with (Q := fun _ => True); auto|]. intros b _.
    destruct b; [|apply inv_raise].
    eapply inv_bind; [apply inv_own_keyhandle|]. intros; apply inv_ret; exact Logic.I.
Qed.
Lemma inv_encrypt_mime m to : inv I Sc (encrypt_mime a m to) (fun _ => True).
Proof.
  unfold encrypt_mime. eapply inv_bind; [apply inv_assert|]. intros [] _.
  eapply inv_bind; [apply inv_foldM with (Q := fun _ => True); auto; intros; apply inv_encrypt_recipient|].
  intros [khs clear] _. eapply inv_bind; [apply inv_own_keyhandle|]. intros own _.
  eapply inv_bind; [apply inv_lift with (Q := fun _ => True); auto|]. intros d _.
  eapply inv_bind; [apply inv_get_bingpg|]. intros g Hg.
  eapply inv_bind; [gl inv_gpg_encrypt|]. intros e _. apply inv_ret. exact Logic.I.
Qed.

Lemma inv_recommend adrs r from : inv I Sc (recommend a adrs r from) (fun _ => True).
Proof.
  unfold recommend. eapply inv_bind; [apply inv_own_config|]. intros c' _. unfold ui_recommendation.
  eapply inv_bind; [apply inv_mapM with (Q := fun _ => True); intros n _|].
  - eapply inv_bind; [apply inv_read with (Q := fun _ => True); auto|]. intros; apply inv_lift; auto.
  - intros; apply inv_lift; auto.
Qed.

Lemma inv_process_outgoing m : inv I Sc (process_outgoing a m) (fun _ => True).
Proof.
  unfold process_outgoing. apply inv_bind with (Q1 := fun _ => True).
  - destruct (hget m _); [|apply inv_ret; exact Logic.I].
    eapply inv_bind; [apply inv_assert|]. intros; apply inv_ret; exact Logic.I.
  - intros [eh m1] _. apply inv_bind with (Q1 := fun _ => True).
    + destruct (hin _ _); [apply inv_ret; exact Logic.I|].
      eapply inv_bind; [apply inv_make_ac_header|]. intros; apply inv_ret; exact Logic.I.
    + intros [added m2] _. eapply inv_bind; [apply inv_lift with (Q := fun _ => True); auto|]. intros b _.
      apply inv_bind with (Q1 := fun _ => True); [|intros; apply inv_ret; exact Logic.I].
      destruct b; [apply inv_ret; exact Logic.I|].
      destruct (hget_all m2 _) as [|f [|]]; try apply inv_raise.
      eapply inv_bind; [apply inv_recommend|]. intros rec _.
      destruct (otext_eqb eh _); [apply inv_ret; exact Logic.I|].
      destruct (_ || _).
      * eapply inv_bind; [apply inv_encrypt_mime|]. intros [em khs] _. apply inv_ret; exact Logic.I.
      * destruct (otext_eqb _ _); [apply inv_raise | apply inv_ret; exact Logic.I].
Qed.
End Acct.

(** ** Peer updates *)
Definition date_ok (k : nat) (date : Z) : Prop := exists i, i < k /\ (date <= clock i)%Z.

Lemma atomic_update_msg chain id date pref kd kh s : atomic (update_from_msg chain id date pref kd kh) s.
Proof.
  unfold update_from_msg. apply atomic_bind; [intros; apply stop_read|]. intros l _.
  destruct (Z.ltb _ _); [apply atomic_ret|]. cbv zeta. destruct (match get_message_entry l id with Some _ => _ | None => _ end); [apply atomic_ret|].
  destruct (negb _).
  - destruct (Z.ltb _ _); [|apply atomic_ret]. apply atomic_bind; [intros; apply stop_lift|]. intros; apply atomic_perform.
  - apply atomic_bind; [intros; apply stop_lift|]. intros; apply atomic_perform.
Qed.
Lemma atomic_update_gossip chain id date kd kh s : atomic (update_from_msg_gossip chain id date kd kh) s.
Proof.
  unfold update_from_msg_gossip. apply atomic_bind; [intros; apply stop_read|]. intros l _.
  destruct (Z.ltb _ _); [apply atomic_ret|]. cbv zeta. destruct (negb _); [apply atomic_raise|].
  destruct (match get_gossip_message_entry l id with Some _ => _ | None => _ end); [apply atomic_ret|].
  apply atomic_bind; [intros; apply stop_lift|]. intros; apply atomic_perform.
Qed.
Lemma inv_update_msg (Sc : label -> Prop) a c k x id date pref kd kh :
  isalnum a = true -> (forall l, Sc l -> not_own a l) -> date_ok k date ->
  Sc (LMsg a x id date pref kd kh) -> said c a kd kh ->
  inv (ctx a c k) Sc (update_from_msg (peer_chain a x) id date pref kd kh) (fun _ => True).
Proof.
  intros Ha HQ [i [Hi Hd]] HSc Hsaid.
  apply inv_label with (l := LMsg a x id date pref kd kh); auto.
  - apply ctx_stable; auto.
  - intros s _ [Hc Hk]. split; [exact Ha|]. split; [exists c; auto|]. exists i. split; [lia | exact Hd].
  - intros s. apply atomic_update_msg.
Qed.
Lemma inv_update_gossip (Sc : label -> Prop) a c k x id date kd kh :
  isalnum a = true -> (forall l, Sc l -> not_own a l) -> date_ok k date ->
  Sc (LGossip a x id date kd kh) -> said c a kd kh ->
  inv (ctx a c k) Sc (update_from_msg_gossip (peer_chain a x) id date kd kh) (fun _ => True).
Proof.
  intros Ha HQ [i [Hi Hd]] HSc Hsaid.
  apply inv_label with (l := LGossip a x id date kd kh); auto.
  - apply ctx_stable; auto.
  - intros s _ [Hc Hk]. split; [exact Ha|]. split; [exists c; auto|]. exists i. split; [lia | exact Hd].
  - intros s. apply atomic_update_gossip.
Qed.

(** ** Reading the clock *)
Lemma inv_bind_time {A} (Sc : label -> Prop) a c k (f : Z -> prog cop A) (Q : A -> Prop) :
  Sc LTick ->
  (forall i k', i < k' -> k <= k' -> inv (ctx a c k') Sc (f (clock i)) Q) ->
  inv (ctx a c k) Sc (x <- perform CTime ;; f x) Q.
Proof.
  intros HSc H s Hw [Hc Hk].
  pose proof (H (a_tick s) (S (a_tick s)) (Nat.lt_succ_diag_r _) ltac:(lia)) as H1.
  destruct (H1 (step LTick s)) as [[ls [Hp [HF [Hw' Hr]]]] Hst].
  - apply step_WF; simpl; auto.
  - split; [exact Hc | simpl; lia].
  - split.
    2:{ intros [|n].
        - exists [], (LTick :: ls). change (stop (@astep _) 0 (x <- perform CTime ;; f x) s) with s.
          change (arun (x <- perform CTime ;; f x) s) with (arun (f (clock (a_tick s))) (step LTick s)).
          repeat split; try (constructor; auto; fail). constructor; [exact Logic.I|exact Hp].
        - destruct (Hst n) as [l0 [l1 [G1 [G2 [G3 G4]]]]]. exists (LTick :: l0), l1.
          split; [constructor; [exact Logic.I|exact G1]|]. split; [constructor; auto|]. split; [exact G3|exact G4]. }
    unfold ends_well. change (arun (x <- perform CTime ;; f x) s) with (arun (f (clock (a_tick s))) (step LTick s)).
    exists (LTick :: ls). split; [constructor; simpl; auto|]. split; [constructor; auto|]. split; [exact Hw'|].
    destruct (snd (arun (f (clock (a_tick s))) (step LTick s))).
    + destruct Hr as [[H2 H3] H4]. split; [split; [exact H2 | lia] | exact H4].
    + destruct Hr as [H2 H3]. split; [exact H2 | lia].
Qed.

Lemma inv_ctx_mono {A} (Sc : label -> Prop) a c k k' (p : prog cop A) (Q : A -> Prop) :
  k <= k' -> (forall l, Sc l -> not_own a l) -> inv (ctx a c k) Sc p Q -> inv (ctx a c k') Sc p Q.
Proof.
  intros Hkk HQ H s Hw [Hc Hk]. destruct (H s Hw) as [[ls [H1 [H2 [H3 H4]]]] Hst]; [split; [exact Hc|lia]|]. split; [|exact Hst].
  exists ls. split; [exact H1|]. split; [exact H2|]. split; [exact H3|].
  assert (Hx : ctx a c k' (fst (arun p s))).
  { pose proof (path_tick_mono _ _ _ H1). split; [|lia].
    destruct (snd (arun p s)); [destruct H4 as [[H5 _] _] | destruct H4 as [H5 _]]; exact H5. }
  destruct (snd (arun p s)); [split; [exact Hx | apply H4] | exact Hx].
Qed.

(** ** Scope of processing an incoming mail *)
(** the peer a mail is attributed to: the From address *)
Definition sender (m : msg) : text := parse_email_addr (Some (parse_email_addr (hget m (L "From")))).

(** the mail that decryption of [m] produces for decrypted bytes [dec] *)
Definition opened (m : msg) (dec : bytes) : msg := transfer_non_content_headers m (parse_bytes dec).

Definition inc_scope (a : text) (m : msg) (no_decrypt : bool) (l : label) : Prop :=
  match l with
  | LTick => True
  | LGpg b _ _ _ => b = a
  | LMsg b x id date pref kd kh =>
      b = a /\ x = sender m /\ id = msg_id_text m /\
      (exists d, parse_date_to_float (hget m (L "Date")) = Ok d /\ (date <= d)%Z) /\
      exists p, parse_one_ac_header_from_msg m [parse_email_addr (hget m (L "From"))] = Ok p /\
                pref = p_pref p /\ kd = p_keydata p /\ (has_error p = true -> kh = None)
  | LGossip b x id date kd kh =>
      b = a /\ no_decrypt = false /\ is_encrypted m = Ok true /\ id = msg_id_text m /\
      (exists d, parse_date_to_float (hget m (L "Date")) = Ok d /\ (date <= d)%Z) /\
      exists dec r pahs p, opens a m dec /\ In r (get_target_emailadr (opened m dec)) /\
        x = parse_email_addr (Some r) /\
        get_gossip_headers_from_msg (opened m dec) = Ok pahs /\ dget pahs r = Some p /\ kd = p_keydata p
  | _ => False
  end.

Lemma inc_scope_not_own a m nd l b : inc_scope a m nd l -> not_own b l.
Proof.
  unfold not_own. destruct l; simpl; try tauto; intros _ H; eapply own_peer; eauto.
Qed.

Section Incoming.
Variables (a : text) (c : cfg_entry) (m : msg) (nd : bool).
Hypothesis Ha : isalnum a = true.
Let Sc := inc_scope a m nd.
Let HQ : forall l, Sc l -> not_own a l := fun l H => inc_scope_not_own a m nd l a H.
Let HSg : forall l, sc_gpg a l -> Sc l.
Proof. intros []; simpl; tauto. Qed.

Lemma inv_process_ac k date d : date_ok k date ->
  parse_date_to_float (hget m (L "Date")) = Ok d -> (date <= d)%Z ->
  inv (ctx a c k) Sc (process_autocrypt_header a m (parse_email_addr (hget m (L "From")))
                        (peerstate_chain a (parse_email_addr (hget m (L "From")))) date (msg_id_text m))
      (fun _ => True).
Proof.
  intros Hd Hpd Hle. unfold process_autocrypt_header.
  eapply inv_bind; [apply inv_lift with (Q := fun p => parse_one_ac_header_from_msg m [parse_email_addr (hget m (L "From"))] = Ok p); auto|].
  intros p Hp.
  apply inv_bind with (Q1 := fun r : option text * pah =>
     p_pref (snd r) = p_pref p /\ p_keydata (snd r) = p_keydata p /\ (has_error p = true -> fst r = None) /\ said c a (p_keydata p) (fst r)).
  - destruct (has_error p) eqn:Ee; [apply inv_ret; repeat split; auto|].
    eapply inv_conseq; [| |apply (inv_import_key Sc a c k Ha HQ HSg p)]; auto.
    simpl. intros [kh p'] [H1 [H2 [H3 H4]]]. repeat split; auto; discriminate.
  - intros [kh p'] [H1 [H2 [H3 H4]]]. cbn [fst snd] in *.
    eapply inv_bind; [|intros; apply inv_ret; exact I].
    apply inv_update_msg; auto; [|rewrite H2; exact H4]. simpl. repeat split; eauto 10.
Qed.

Lemma inv_process_gossip k date d dec : date_ok k date ->
  parse_date_to_float (hget m (L "Date")) = Ok d -> (date <= d)%Z ->
  nd = false -> is_encrypted m = Ok true -> opens a m dec ->
  inv (ctx a c k) Sc (process_gossip_headers a (opened m dec) date (msg_id_text m)) (fun _ => True).
Proof.
  intros Hd Hpd Hle Hnd Henc Hop. unfold process_gossip_headers.
  eapply inv_bind; [apply inv_lift with (Q := fun p => get_gossip_headers_from_msg (opened m dec) = Ok p); auto|].
  intros pahs Hp.
  set (kds := fun (d : dict pah) => forall r p, dget d r = Some p -> exists p0, dget pahs r = Some p0 /\ p_keydata p = p_keydata p0).
  eapply inv_bind; [apply inv_foldM with (Q := fun st : dict pah * dict pah => kds (fst st))|intros; apply inv_ret; exact I].
  - simpl. intros r p Hr. exists p. auto.
  - intros [d2 pr] r Hst Hin. unfold gossip_recipient.
    destruct (dget d2 r) as [p|] eqn:Er; [|apply inv_ret; exact Hst].
    eapply inv_bind; [apply (inv_import_key Sc a c k Ha HQ HSg p)|].
    intros [kh p'] [H1 [H2 [H3 Hs]]]. cbn [fst snd] in *.
    eapply inv_bind; [apply inv_update_gossip; auto; [|rewrite H2; exact Hs]|].
    + destruct (Hst r p Er) as [p0 [H4 H5]].
      simpl. repeat split; eauto. exists dec, r, pahs, p0. repeat split; auto. congruence.
    + intros _ _. apply inv_ret. simpl. intros r' q. rewrite dget_dset.
      destruct (text_eqb_spec r' r) as [->|Hne].
      * intros [= <-]. destruct (Hst r p Er) as [p0 [H4 H5]]. exists p0. split; [auto|congruence].
      * apply Hst.
Qed.

Lemma inv_process_incoming k ign : inv (ctx a c k) Sc (process_incoming a m ign nd)
  (fun r => match r with Some i => in_acct i = a | None => True end).
Proof.
  unfold process_incoming.
  eapply inv_bind; [apply inv_lift with (Q := fun d => parse_date_to_float (hget m (L "Date")) = Ok d); auto|].
  intros d Hd. unfold effective_date. cbn [bind perform].
  apply (inv_bind_time Sc a c k (fun now => _)); [exact I|].
  intros i k' Hi Hk. cbn [bind].
  assert (Hok : date_ok k' (Z.min d (clock i))) by (exists i; split; [exact Hi | lia]).
  apply (inv_bind _ _ (perform (CRead _)) _ (fun _ => True)); [apply inv_read; auto|].
  intros l _. destruct (ign && _); [apply inv_ret; exact I|].
  eapply inv_bind; [eapply inv_process_ac with (d := d); [exact Hok|exact Hd|lia]|]. intros p _.
  apply inv_bind with (Q1 := fun e => e = true -> nd = false /\ is_encrypted m = Ok true).
  - destruct nd; [apply inv_ret; discriminate|]. apply inv_lift. intros b Hb ->. auto.
  - intros enc Henc. apply inv_bind with (Q1 := fun _ => True); [|intros; apply inv_ret; reflexivity].
    destruct enc; [|apply inv_ret; exact I]. destruct (Henc eq_refl) as [Hnd He].
    eapply inv_bind; [apply (inv_decrypt_mime Sc a c k' Ha HQ HSg)|].
    intros [dm infos] [_ [dec [Hop Hdm]]]. simpl in Hdm. subst dm.
    eapply inv_bind; [eapply inv_process_gossip with (d := d); [exact Hok|exact Hd|lia|exact Hnd|exact He|exact Hop]|]. intros gp _.
    eapply inv_bind; [apply inv_own_keyhandle; auto|]. intros; apply inv_ret; exact I.
Qed.
End Incoming.

(** ** Importing by hand *)
Definition imp_scope (a : text) (pref : text) (addr : option text) (l : label) : Prop :=
  match l with
  | LTick => True
  | LGpg b _ _ _ => b = a
  | LMsg b x id date pr kd kh =>
      b = a /\ id = [] /\ pr = Some pref /\ (exists k h, kd = Some k /\ kh = Some h) /\
      (forall y, addr = Some y -> x = parse_email_addr (Some (parse_email_addr (Some y))))
  | _ => False
  end.
Lemma imp_scope_not_own a pref addr l b : imp_scope a pref addr l -> not_own b l.
Proof.
  unfold not_own. destruct l; simpl; try tauto; intros _ H; eapply own_peer; eauto.
Qed.
Lemma inv_import_autocrypt a c k addr kd pref : isalnum a = true ->
  inv (ctx a c k) (imp_scope a pref addr) (import_keydata_as_autocrypt a addr kd pref) (fun _ => True).
Proof.
  intros Ha.
  assert (HQ : forall l, imp_scope a pref addr l -> not_own a l) by (intros; eapply imp_scope_not_own; eauto).
  assert (HSg : forall l, sc_gpg a l -> imp_scope a pref addr l) by (intros []; simpl; tauto).
  assert (HSt := ctx_stable a c k _ HQ).
  unfold import_keydata_as_autocrypt.
  eapply inv_bind; [apply inv_get_bingpg; auto|]. intros g Hg.
  eapply inv_bind; [gl inv_import_keydata|]. intros kh _.
  apply inv_bind with (Q1 := fun l => forall y, addr = Some y -> l = [parse_email_addr (Some y)]).
  - destruct addr as [y|]; [apply inv_ret; intros ? [= <-]; reflexivity|].
    eapply inv_bind; [gl inv_list_pub|]. intros l _. apply inv_ret. discriminate.
  - intros us Hus. eapply inv_bind; [apply inv_result; gl inv_import_keydata|]. intros kh2 [_ [s1 [_ Hs1]]].
    apply inv_bind with (Q1 := fun _ => True).
    + eapply inv_true, inv_mapM with (Q := fun _ => True). intros u Hu.
      apply (inv_bind_time _ a c k (fun now => _)); [exact I|]. intros i k' Hi Hk. cbn [bind].
      eapply inv_bind; [apply inv_result; gl inv_get_public_keydata|].
      intros kd' [_ [s2 [_ Hs2]]]. apply inv_update_msg; auto.
      * exists i. split; [exact Hi | lia].
      * simpl. repeat split; eauto. intros y Hy. rewrite (Hus y Hy) in Hu. destruct Hu as [<-|[]]. reflexivity.
      * exists g, kd'. split; [exact Hg|]. split; [reflexivity|]. right. exists kd. split; [exists s1; exact Hs1|exists s2; exact Hs2].
    + intros _ _. eapply inv_bind; [gl inv_get_public_keydata|].
      intros; apply inv_ret; exact I.
Qed.

(** ** get_account *)
Definition sc_init (l : label) : Prop := l = LVersion.

Lemma arun_ensure_init s : arun ensure_init s =
  match version_of s with
  | Some _ => (s, Ok tt)
  | None => (app_log s mgr_chain (EACfg (ACfgEntry (L "0.1"))), Ok tt)
  end.
Proof.
  unfold ensure_init. rewrite arun_bind. unfold mgr_version at 1, arun at 1. cbn [bind perform run astep].
  unfold version_of. destruct (hd_error _) eqn:Ev; cbn [option_map]; [reflexivity|].
  rewrite arun_bind. unfold mgr_version, arun at 1. cbn [bind perform run astep]. rewrite Ev. cbn [option_map assert_].
  rewrite arun_bind. cbn [arun run]. rewrite set_version_run. unfold version_of. rewrite Ev. reflexivity.
Qed.

Lemma stop_version m s : stop (@astep _) m mgr_version s = s.
Proof.
  unfold mgr_version. destruct (stop_bind (@astep _) (perform (CRead mgr_chain)) (fun l => Ret (option_map ac_version (hd_error (acfg_entries l)))) m s)
    as [H|[a [k [_ H]]]]; [|]; etransitivity; try exact H; [apply stop_read|]. rewrite stop_ret. reflexivity.
Qed.
Lemma atomic_set_version v s : atomic (set_version v) s.
Proof.
  unfold set_version.
  apply atomic_bind; [intros; apply stop_read|]. intros l _. destruct (hd_error _); [apply atomic_raise|apply atomic_perform].
Qed.
Lemma atomic_ensure_init s : atomic ensure_init s.
Proof.
  unfold ensure_init. apply atomic_bind; [intros; apply stop_version|]. intros [v|] _; [apply atomic_ret|].
  apply atomic_bind; [intros; apply stop_version|]. intros v _.
  apply atomic_bind; [intros; destruct v; [apply stop_raise|apply stop_ret]|]. intros [] _. apply atomic_set_version.
Qed.
Lemma inv_ensure_init (I : ast -> Prop) (Sc : label -> Prop) :
  stable I Sc -> Sc LVersion -> inv I Sc ensure_init (fun _ => True).
Proof.
  intros HSt HSc s Hw Hs.
  enough (Hend : ends_well Sc ensure_init (fun _ s => I s /\ True) I s) by (split; [exact Hend|eapply atomic_stops; [apply atomic_ensure_init|exact Hend]]).
  unfold ends_well. rewrite arun_ensure_init.
  assert (Hst : step LVersion s = match version_of s with Some _ => s | None => app_log s mgr_chain (EACfg (ACfgEntry (L "0.1"))) end).
  { unfold step, step_prog. rewrite set_version_run. destruct (version_of s); reflexivity. }
  destruct (version_of s) eqn:Ev.
  - exists []. simpl. split; [constructor|]. auto.
  - exists [LVersion]. simpl. rewrite <- Hst. split; [|split; [|split]].
    + constructor; [exact Logic.I | constructor].
    + auto.
    + apply step_WF; simpl; auto.
    + split; auto. apply HSt; simpl; auto.
Qed.

Definition exists_acct (s : ast) (a : text) : Prop :=
  exists c kg, config_of s a = Some c /\ keygen_of s a = Some kg.

Lemma is_configured_exists s a : is_configured (alog s (own_chain a)) = true <-> exists_acct s a.
Proof.
  unfold is_configured, exists_acct, config_of, keygen_of.
  destruct (latest_config _), (latest_keygen _); split; try discriminate; eauto; intros [x [y [H1 H2]]]; congruence.
Qed.

Lemma stop_exists m n s : stop (@astep _) m (account_exists n) s = s.
Proof.
  unfold account_exists. destruct m as [|m]; [reflexivity|]. cbn [bind perform stop astep]. apply stop_ret.
Qed.
Lemma triple_get_account (I : ast -> Prop) (Sc : label -> Prop) n :
  stable I Sc -> Sc LVersion ->
  triple I Sc (get_account n true) (fun a s => I s /\ a = n /\ isalnum n = true /\ exists_acct s n) I.
Proof.
  intros HSt HSc. unfold get_account.
  eapply triple_bind; [apply inv_ensure_init; auto|]. intros [].
  eapply triple_bind with (Mid := fun _ s => I s /\ isalnum n = true).
  - eapply triple_conseq; [| | | |apply (inv_assert I Sc (isalnum n))]; simpl; auto. tauto.
  - intros []. eapply triple_bind with (Mid := fun b s => I s /\ isalnum n = true /\ b = is_configured (alog s (own_chain n))).
    + intros s Hw [Hs Hn]. split; [|apply quiet_stops; intros m; apply stop_exists]. exists []. simpl. split; [constructor|]. auto.
    + intros b. destruct b; [apply triple_ret|apply triple_raise; tauto].
      intros s _ [H1 [H2 H3]]. repeat split; auto. apply is_configured_exists. auto.
Qed.

Lemma arun_get_account_nocheck n s : arun (get_account n false) s =
  (fst (arun ensure_init s), if isalnum n then Ok n else Err AssertionError).
Proof.
  unfold get_account. rewrite arun_bind, arun_ensure_init. destruct (version_of s); cbn [fst]; destruct (isalnum n); reflexivity.
Qed.

(** A method of an existing account. *)
Lemma inv_with_account {A} (Sc : label -> Prop) n (f : text -> prog cop A) :
  Sc LVersion ->
  (forall c k, isalnum n = true -> inv (ctx n c k) Sc (f n) (fun _ => True)) ->
  inv (fun _ => True) Sc (with_account n f) (fun _ => True).
Proof.
  intros HSc H. unfold with_account. eapply triple_bind.
  - apply triple_get_account with (I := fun _ => True); auto. intros s l _ _ _ _. exact I.
  - intros a s Hw [_ [-> [Hn [c [kg [Hc _]]]]]].
    destruct (H c 0 Hn s Hw) as [[ls [H1 [H2 [H3 H4]]]] Hst]; [split; [exact Hc | lia]|]. split; [|exact Hst].
    exists ls. split; [exact H1|]. split; [exact H2|]. split; [exact H3|]. destruct (snd (arun (f n) s)); simpl; auto.
Qed.

Lemma inv_bind_get_account {A} (Sc : label -> Prop) n (f : text -> prog cop A) (Q : A -> Prop) :
  Sc LVersion ->
  (forall c k, isalnum n = true -> triple (fun s => ctx n c k s /\ exists_acct s n) Sc (f n) (fun a _ => Q a) (fun _ => True)) ->
  inv (fun _ => True) Sc (a <- get_account n true ;; f a) Q.
Proof.
  intros HSc H. eapply triple_bind.
  - apply triple_get_account with (I := fun _ => True); auto. intros s l _ _ _ _. exact I.
  - intros a s Hw [_ [-> [Hn He]]]. destruct He as [c [kg [Hc Hk]]].
    destruct (H c 0 Hn s Hw) as [[ls [H1 [H2 [H3 H4]]]] Hst]; [split; [split; [exact Hc | lia]|exists c, kg; auto]|]. split; [|exact Hst].
    exists ls. split; [exact H1|]. split; [exact H2|]. split; [exact H3|]. destruct (snd (arun (f n) s)); simpl; auto.
Qed.

End Exec.

Ltac gl lem := eapply lem; first [eassumption | apply ctx_cfg | apply ctx_stable; assumption].
