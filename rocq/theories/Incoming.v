(** process_incoming taken apart: an equation for its run, and the effect on logs. *)
From Verif Require Import Base PyStr Base64 Env Prog Chain Gpg Mime States Recommendation Account Cmdline Bot Fs Api Steps StepFacts Exec ApiScope Spec Obs PeerSpec.

Section Incoming.
Context {E : Env}.

(** ** Parsing of headers *)
Lemma ac_step_pref st x st' : ac_step st x = Ok (inl st') -> valid_pref (h_pref st) = true -> valid_pref (h_pref st') = true.
Proof.
  unfold ac_step. destruct (split_max _ _ _) as [|k [|v [|]]]; try discriminate.
  cbv zeta. destruct (text_eqb _ _); [destruct (b64decode _); [intros [= <-]; auto|discriminate]|].
  destruct (text_eqb _ _).
  { destruct (mem_text _ _) eqn:Em; [intros [= <-]; auto|discriminate]. }
  destruct (text_eqb _ _); [intros [= <-]; auto|].
  destruct (strip k); [discriminate|]. destruct (N.eqb _ _); [intros [= <-]; auto|discriminate].
Qed.
Lemma ac_step_err st x p : ac_step st x = Ok (inr p) -> p_keydata p = None /\ has_error p = true.
Proof.
  unfold ac_step. destruct (split_max _ _ _) as [|k [|v [|]]]; try (intros [= <-]; auto; fail).
  cbv zeta. destruct (text_eqb _ _); [destruct (b64decode _); [discriminate|intros [= <-]; auto]|].
  destruct (text_eqb _ _).
  { destruct (mem_text _ _) eqn:Em; [discriminate|intros [= <-]; auto]. }
  destruct (text_eqb _ _); [discriminate|].
  destruct (strip k); [discriminate|]. destruct (N.eqb _ _); [discriminate|intros [= <-]; auto].
Qed.
Lemma ac_loop_pref st l st' : ac_loop st l = Ok (inl st') -> valid_pref (h_pref st) = true -> valid_pref (h_pref st') = true.
Proof.
  revert st; induction l as [|x l IH]; simpl; intros st; [intros [= <-]; auto|].
  destruct (ac_step st x) as [[st1|p]|] eqn:Es; try discriminate.
  intros H Hv. eapply IH; eauto. eapply ac_step_pref; eauto.
Qed.
Lemma ac_loop_err st l p : ac_loop st l = Ok (inr p) -> p_keydata p = None /\ has_error p = true.
Proof.
  revert st; induction l as [|x l IH]; simpl; intros st; [discriminate|].
  destruct (ac_step st x) as [[st1|q]|] eqn:Es; try discriminate; [apply IH|].
  intros [= <-]. eapply ac_step_err; eauto.
Qed.

(** a parse result is either an error without key or complete *)
Definition full (p : pah) : Prop :=
  exists key x pref extra, p = PAH (Some key) (Some x) (Some pref) (Some extra) None /\ valid_pref pref = true.
Definition failed (p : pah) : Prop := p_keydata p = None /\ has_error p = true.

Lemma parse_cases v p : parse_ac_headervalue v = Ok p -> full p \/ failed p.
Proof.
  unfold parse_ac_headervalue. destruct (ac_loop _ _) as [[st|q]|] eqn:El; cbn [rbind]; try discriminate.
  - destruct (h_kd st) as [kd|]; [|intros [= <-]; right; split; reflexivity].
    destruct (h_addr st) as [x|]; [|intros [= <-]; right; split; reflexivity].
    intros [= <-]. left. exists kd, x, (h_pref st), (h_extra st). split; [reflexivity|].
    eapply ac_loop_pref; [exact El|reflexivity].
  - intros [= <-]. right. eapply ac_loop_err; eauto.
Qed.
Lemma full_not_failed p : full p -> has_error p = false.
Proof. intros [k [x [pr [e [-> _]]]]]. reflexivity. Qed.

(** the results of the loop over Autocrypt headers are exactly the valid ones for x *)
Definition pick (x : text) (v : text) : list pah :=
  match parse_ac_headervalue v with
  | Ok p => if match p_addr p with Some a => text_eqb a x | None => false end then
              if has_error p then [] else [p]
            else []
  | Err _ => []
  end.
Lemma pick_full x v p : In p (pick x v) <-> exists key pref extra,
  parse_ac_headervalue v = Ok p /\ p = PAH (Some key) (Some x) (Some pref) (Some extra) None /\ valid_pref pref = true.
Proof.
  unfold pick. split.
  - destruct (parse_ac_headervalue v) as [q|] eqn:Ep; [|intros []].
    destruct (match p_addr q with Some a => text_eqb a x | None => false end) eqn:Em; [|intros []].
    destruct (has_error q) eqn:Eq; [intros []|]. intros [<-|[]].
    destruct (parse_cases v q Ep) as [[k [y [pr [e [-> Hv]]]]]|[_ Hf]]; [|congruence].
    simpl in Em. apply text_eqb_eq in Em. subst y. eauto 6.
  - intros [k [pr [e [-> [-> Hv]]]]]. simpl. rewrite text_eqb_refl. simpl. auto.
Qed.
Lemma pick_key x v : (exists k p, key_header v x k p) <-> pick x v <> [].
Proof.
  split.
  - intros [k [pr [e H]]]. unfold pick. rewrite H. simpl. rewrite text_eqb_refl. discriminate.
  - destruct (pick x v) as [|p l] eqn:Ep; [congruence|]. intros _.
    destruct (proj1 (pick_full x v p)) as [k [pr [e [H [-> _]]]]]; [rewrite Ep; simpl; auto|].
    exists k, pr, e. exact H.
Qed.
Lemma headers_loop_spec x vals rs es : ac_headers_loop [x] vals = Ok (rs, es) ->
  Forall (fun v => exists p, parse_ac_headervalue v = Ok p) vals /\
  Forall failed es /\ rs = flat_map (pick x) vals.
Proof.
  revert rs es; induction vals as [|v vals IH]; intros rs es; cbn [ac_headers_loop].
  - intros [= <- <-]. auto.
  - destruct (parse_ac_headervalue v) as [p|] eqn:Ep; cbn [rbind]; [|discriminate].
    destruct (ac_headers_loop [x] vals) as [[rs0 es0]|] eqn:El; cbn [rbind]; [|discriminate].
    destruct (IH _ _ eq_refl) as [H1 [H2 ->]]. clear IH. cbn [flat_map].
    assert (Hpk : pick x v = if match p_addr p with Some a => text_eqb a x | None => false end then
                               if has_error p then [] else [p] else []) by (unfold pick; rewrite Ep; reflexivity).
    rewrite Hpk.
    destruct (parse_cases v p Ep) as [Hf|Hf].
    + rewrite (full_not_failed p Hf). destruct Hf as [k [y [pr [e [-> Hv]]]]]. cbn [nonempty andb p_addr mem_text existsb].
      rewrite orb_false_r. destruct (text_eqb y x); cbn [negb]; intros [= <- <-]; (split; [constructor; eauto|]); split; auto.
      constructor; [split; reflexivity|exact H2].
    + destruct Hf as [Hk He]. rewrite He. destruct (match p_addr p with Some _ => _ | None => _ end); intros [= <- <-];
        (split; [constructor; eauto|]); split; auto; constructor; auto; split; auto.
Qed.
Lemma headers_loop_ok x vals : Forall (fun v => exists p, parse_ac_headervalue v = Ok p) vals ->
  exists rs es, ac_headers_loop [x] vals = Ok (rs, es).
Proof.
  induction 1 as [|v vals [p Hp] H [rs [es IH]]]; cbn [ac_headers_loop]; [eauto|].
  rewrite Hp, IH. cbn [rbind]. destruct (has_error p); [eauto|]. destruct (_ && _); eauto.
Qed.

Lemma flat_map_single {A B} (f : A -> list B) l r : flat_map f l = [r] ->
  exists pre v post, l = pre ++ v :: post /\ f v = [r] /\ forall w, In w (pre ++ post) -> f w = [].
Proof.
  induction l as [|v l IH]; simpl; [discriminate|]. destruct (f v) as [|y ys] eqn:Ef; simpl.
  - intros H. destruct (IH H) as [pre [w [post [-> [H1 H2]]]]]. exists (v :: pre), w, post.
    split; [reflexivity|]. split; [exact H1|]. intros u [<-|Hu]; auto.
  - intros [= -> H]. apply app_eq_nil in H. destruct H as [-> H]. exists [], v, l.
    split; [reflexivity|]. split; [exact Ef|]. simpl. intros w Hw.
    destruct (f w) eqn:Ew; [reflexivity|]. exfalso.
    assert (In b (flat_map f l)) by (apply in_flat_map; exists w; rewrite Ew; simpl; auto). rewrite H in H0. destruct H0.
Qed.
Lemma flat_map_nil {A B} (f : A -> list B) l : (forall w, In w l -> f w = []) -> flat_map f l = [].
Proof. induction l; simpl; auto. intros H. rewrite H by auto. simpl. apply IHl. auto. Qed.

(** the header parser of a mail: complete result iff the mail carries that key *)
Lemma carries_parse m key pref : carries m key pref ->
  valid_pref pref = true /\
  exists extra, parse_one_ac_header_from_msg m [from_addr m] = Ok (PAH (Some key) (Some (sender_of m)) (Some pref) (Some extra) None).
Proof.
  intros [Hr [Hl [pre [v [post [Hv [[extra Hk] Ho]]]]]]].
  assert (Hp : In (PAH (Some key) (Some (sender_of m)) (Some pref) (Some extra) None) (pick (sender_of m) v)).
  { unfold pick. rewrite Hk. simpl. rewrite text_eqb_refl. simpl. auto. }
  split. { apply pick_full in Hp. destruct Hp as [k [q [e [_ [[= _ <- _] Hq]]]]]. exact Hq. }
  exists extra. unfold parse_one_ac_header_from_msg. apply text_eqb_neq in Hr. rewrite Hr. cbv zeta. cbn [map].
  assert (Nat.ltb 1 (length (getaddresses (hget_all m (L "From")))) = false) as -> by (apply Nat.ltb_ge; exact Hl).
  change (parse_email_addr (Some (from_addr m))) with (sender_of m). rewrite Hv.
  assert (HF : Forall (fun v => exists p, parse_ac_headervalue v = Ok p) (pre ++ v :: post)).
  { rewrite Forall_forall. intros w Hw. apply in_app_iff in Hw. destruct Hw as [Hw|[<-|Hw]]; [|eauto|];
      apply Ho, in_app_iff; auto. }
  destruct (headers_loop_ok (sender_of m) _ HF) as [rs [es Hloop]]. rewrite Hloop. cbn [rbind].
  apply headers_loop_spec in Hloop. destruct Hloop as [_ [_ ->]].
  assert (Hn : forall w, In w (pre ++ post) -> pick (sender_of m) w = []).
  { intros w Hw. destruct (pick (sender_of m) w) eqn:Ep; [reflexivity|]. exfalso.
    destruct (proj2 (pick_key (sender_of m) w)) as [k [q Hq]]; [congruence|]. eapply Ho; eauto. }
  rewrite flat_map_app, (flat_map_nil _ pre) by (intros; apply Hn, in_app_iff; auto). cbn [flat_map app].
  rewrite (flat_map_nil _ post), app_nil_r by (intros; apply Hn, in_app_iff; auto).
  unfold pick. rewrite Hk. simpl. rewrite text_eqb_refl. reflexivity.
Qed.
Lemma parse_carries m p : parse_one_ac_header_from_msg m [from_addr m] = Ok p ->
  failed p \/ exists key pref extra, p = PAH (Some key) (Some (sender_of m)) (Some pref) (Some extra) None /\
                 valid_pref pref = true /\ carries m key pref.
Proof.
  unfold parse_one_ac_header_from_msg. destruct (text_eqb_spec (get_content_type m) (L "multipart/report")) as [Hr|Hr].
  { intros [= <-]. left. split; reflexivity. }
  cbv zeta. destruct (Nat.ltb_spec 1 (length (getaddresses (hget_all m (L "From"))))) as [Hl|Hl].
  { intros [= <-]. left. split; reflexivity. }
  cbn [map]. change (parse_email_addr (Some (from_addr m))) with (sender_of m).
  destruct (ac_headers_loop [sender_of m] _) as [[rs es]|] eqn:El; cbn [rbind]; [|discriminate].
  apply headers_loop_spec in El. destruct El as [H1 [H2 H3]].
  destruct rs as [|r [|r2 rs]].
  - destruct es as [|e es]; intros [= <-]; left; [split; reflexivity|]. inversion H2; auto.
  - intros [= <-]. right. symmetry in H3. destruct (flat_map_single _ _ _ H3) as [pre [v [post [Hv [Hp Ho]]]]].
    assert (Hin : In r (pick (sender_of m) v)) by (rewrite Hp; simpl; auto).
    apply pick_full in Hin. destruct Hin as [k [pr [e [Hpar [-> Hval]]]]].
    exists k, pr, e. split; [reflexivity|]. split; [exact Hval|].
    split; [exact Hr|]. split; [exact Hl|]. exists pre, v, post. split; [exact Hv|]. split; [exists e; exact Hpar|].
    intros w Hw. split.
    + rewrite Hv in H1. rewrite Forall_forall in H1. apply H1. apply in_app_iff in Hw. apply in_app_iff. simpl. tauto.
    + intros k' p' Hk'. apply (proj1 (pick_key (sender_of m) w)); [eauto|]. apply Ho; auto.
  - intros [= <-]. left. split; reflexivity.
Qed.
Lemma carries_unique m k1 p1 k2 p2 : carries m k1 p1 -> carries m k2 p2 -> k1 = k2 /\ p1 = p2.
Proof.
  intros H1 H2. apply carries_parse in H1, H2. destruct H1 as [_ [e1 H1]], H2 as [_ [e2 H2]].
  rewrite H1 in H2. injection H2. auto.
Qed.

(** ** The run of process_incoming *)
Definition import_run (a : text) (p : pah) (s : ast) : ast * result (option text * pah) :=
  if has_error p then (s, Ok (None, p)) else arun (import_key a p) s.
(** what follows the update of the sender *)
Definition rest_prog (a : text) (m : msg) (nd : bool) (date : Z) (p : pah) : prog cop (option incoming) :=
  enc <- (if nd then Ret false else lift (is_encrypted m)) ;;
  gossip <- (if enc then
               '(dec, _) <- decrypt_mime a m ;;
               gp <- process_gossip_headers a dec date (msg_id_text m) ;;
               own_keyhandle a ;;;
               Ret gp
             else Ret []) ;;
  Ret (Some (Incoming (msg_id_text m) date (peerstate_chain a (from_addr m)) a p gossip)).

Lemma import_key_shape a p s kh p' s' : arun (import_key a p) s = (s', Ok (kh, p')) ->
  p_pref p' = p_pref p /\ p_keydata p' = p_keydata p.
Proof.
  unfold import_key. rewrite arun_bind. destruct (arun (get_bingpg a) s) as [s1 [g|]]; [|discriminate].
  destruct (p_keydata p) as [kd|] eqn:Ek; [|discriminate].
  rewrite arun_catch, arun_bind. destruct (arun (import_keydata g kd false) s1) as [s2 [h|e]].
  - cbn. intros [= _ _ <-]. auto.
  - destruct e; try discriminate. cbn. intros [= _ _ <-]. auto.
Qed.
Lemma import_run_shape a p s s' kh p' : import_run a p s = (s', Ok (kh, p')) ->
  p_pref p' = p_pref p /\ p_keydata p' = p_keydata p.
Proof.
  unfold import_run. destruct (has_error p); [intros [= _ _ <-]; auto|apply import_key_shape].
Qed.

Lemma update_ok s chain id date p kh : (failed p \/ exists k pr, p_keydata p = Some k /\ p_pref p = Some pr /\ valid_pref pr = true) ->
  snd (arun (update_from_msg chain id date (p_pref p) (p_keydata p) kh) s) = Ok tt.
Proof.
  intros H. rewrite update_from_msg_run. unfold msg_decide.
  destruct (Z.ltb _ _); [reflexivity|]. set (dup := match get_message_entry _ id with Some _ => _ | None => _ end).
  destruct dup; [reflexivity|].
  destruct H as [[H _]|[k [pr [-> [-> Hv]]]]].
  - rewrite H. cbn [nonempty negb]. destruct (Z.ltb _ _); reflexivity.
  - destruct (nonempty k); cbn [negb]; [|destruct (Z.ltb _ _); reflexivity].
    unfold mk_msg_entry. rewrite Hv. reflexivity.
Qed.

Lemma incoming_run a m ign nd s :
  let R := arun (process_incoming a m ign nd) s in
  match parse_date_to_float (hget m (L "Date")) with
  | Err e => R = (s, Err e)
  | Ok d =>
    let date := Z.min d (clock (a_tick s)) in
    let s0 := step LTick s in
    if ign && has_message (peer_log s a (sender_of m)) (msg_id_text m) then R = (s0, Ok None)
    else
      match parse_one_ac_header_from_msg m [from_addr m] with
      | Err e => R = (s0, Err e)
      | Ok p =>
        match import_run a p s0 with
        | (s1, Err e) => R = (s1, Err e)
        | (s1, Ok (kh, p')) =>
          R = arun (rest_prog a m nd date p')
                   (step (LMsg a (sender_of m) (msg_id_text m) date (p_pref p) (p_keydata p) kh) s1)
        end
      end
  end.
Proof.
  cbv zeta. unfold process_incoming. rewrite arun_bind.
  destruct (parse_date_to_float (hget m (L "Date"))) as [d|e]; [|reflexivity].
  cbn [lift]. change (arun (Ret d) s) with (s, @Ok Z d). cbv beta iota.
  rewrite arun_bind. change (arun (effective_date d) s) with (step LTick s, Ok (Z.min d (clock (a_tick s)))). cbv beta iota.
  fold (from_addr m). change (peerstate_chain a (from_addr m)) with (peer_chain a (sender_of m)).
  rewrite arun_bind.
  change (arun (perform (CRead (peer_chain a (sender_of m)))) (step LTick s))
    with (step LTick s, Ok (peer_log s a (sender_of m))). cbv beta iota.
  destruct (ign && has_message (peer_log s a (sender_of m)) (msg_id_text m)); [reflexivity|].
  unfold process_autocrypt_header.
  rewrite arun_bind, arun_bind.
  destruct (parse_one_ac_header_from_msg m [from_addr m]) as [p|e] eqn:Ep; [|reflexivity].
  cbn [lift]. change (arun (Ret p) (step LTick s)) with (step LTick s, @Ok pah p). cbv beta iota.
  rewrite arun_bind. unfold import_run.
  assert (Hi : arun (if has_error p then Ret (None, p) else import_key a p) (step LTick s) = import_run a p (step LTick s)).
  { unfold import_run. destruct (has_error p); reflexivity. }
  rewrite Hi. change (if has_error p then (step LTick s, Ok (None, p)) else arun (import_key a p) (step LTick s)) with (import_run a p (step LTick s)).
  destruct (import_run a p (step LTick s)) as [s1 [[kh p']|e]] eqn:Er; [|reflexivity].
  apply import_run_shape in Er. destruct Er as [H1 H2]. rewrite H1, H2.
  rewrite arun_bind.
  assert (Hu : snd (arun (update_from_msg (peer_chain a (sender_of m)) (msg_id_text m) (Z.min d (clock (a_tick s))) (p_pref p) (p_keydata p) kh) s1) = Ok tt).
  { apply update_ok. destruct (parse_carries m p Ep) as [Hf|[k [pr [e [-> [Hv _]]]]]]; [auto|]. right. exists k, pr. auto. }
  unfold step at 1, step_prog. destruct (arun (update_from_msg _ _ _ _ _ _) s1) as [s2 [[]|]]; [|discriminate].
  reflexivity.
Qed.

(** ** Effect of steps on the entries of a peer *)
(** message entries of a peer log after update_from_msg *)
Definition decide_msgs (l : list block) (id : text) (date : Z) (pref : option text) (kd : option bytes) (kh : option text) : list msg_entry :=
  match msg_decide l id date pref kd kh with
  | Ok (Some (EMsg e)) => e :: msg_entries l
  | _ => msg_entries l
  end.
Definition decide_gossips (l : list block) (id : text) (date : Z) (kd : option bytes) (kh : option text) : list gossip_entry :=
  match gossip_decide l id date kd kh with
  | Ok (Some (EGossip e)) => e :: gossip_entries l
  | _ => gossip_entries l
  end.

Lemma peer_log_app s a x e : peer_log (app_log s (peer_chain a x) e) a x = Block (clock (a_tick s)) e :: peer_log s a x.
Proof. unfold peer_log. rewrite alog_app, text_eqb_refl. reflexivity. Qed.

Lemma step_msg_log s a x id d pref kd kh y :
  msg_entries (peer_log (step (LMsg a x id d pref kd kh) s) a y) =
  (if text_eqb y x then decide_msgs (peer_log s a x) id d pref kd kh else msg_entries (peer_log s a y)) /\
  gossip_entries (peer_log (step (LMsg a x id d pref kd kh) s) a y) = gossip_entries (peer_log s a y).
Proof.
  destruct (text_eqb_spec y x) as [->|Hn].
  - unfold step, step_prog. rewrite update_from_msg_run. unfold decide_msgs. fold (peer_log s a x).
    destruct (msg_decide (peer_log s a x) id d pref kd kh) as [[e|]|] eqn:Ed; cbn [decided fst]; auto.
    rewrite peer_log_app.
    apply msg_decide_some in Ed. destruct Ed as [_ [[p [k [-> [_ [-> [_ ->]]]]]]|[_ [_ ->]]]]; split; reflexivity.
  - unfold peer_log. rewrite step_frame; auto. simpl. intros H. apply peer_chain_addr_inj in H. auto.
Qed.
Lemma step_gossip_log s a x id d kd kh y :
  gossip_entries (peer_log (step (LGossip a x id d kd kh) s) a y) =
  (if text_eqb y x then decide_gossips (peer_log s a x) id d kd kh else gossip_entries (peer_log s a y)) /\
  msg_entries (peer_log (step (LGossip a x id d kd kh) s) a y) = msg_entries (peer_log s a y).
Proof.
  destruct (text_eqb_spec y x) as [->|Hn].
  - unfold step, step_prog. rewrite update_from_msg_gossip_run. unfold decide_gossips. fold (peer_log s a x).
    destruct (gossip_decide (peer_log s a x) id d kd kh) as [[e|]|] eqn:Ed; cbn [decided fst]; auto.
    rewrite peer_log_app.
    apply gossip_decide_some in Ed. destruct Ed as [_ [k [h [-> [_ [-> ->]]]]]]; split; reflexivity.
  - unfold peer_log. rewrite step_frame; auto. simpl. intros H. apply peer_chain_addr_inj in H. auto.
Qed.

Lemma gpg_path_logs a s ls s' : path s ls s' -> Forall (sc_gpg a) ls -> a_logs s' = a_logs s.
Proof.
  induction 1 as [|s l ls s' Hg Hp IH]; intros HF; auto. inversion HF; subst. rewrite IH by auto.
  destruct l; simpl in *; try tauto. apply step_gpg.
Qed.

(** ** The gossip part *)
Definition gossip_scope (a : text) (m : msg) (nd : bool) (date : Z) (l : label) : Prop :=
  match l with
  | LGpg b _ _ _ => b = a
  | LGossip b x id dt kd kh =>
      b = a /\ dt = date /\ nd = false /\ is_encrypted m = Ok true /\ id = msg_id_text m /\
      exists dec r pahs p, opens a m dec /\ In r (get_target_emailadr (opened m dec)) /\
        x = parse_email_addr (Some r) /\
        get_gossip_headers_from_msg (opened m dec) = Ok pahs /\ dget pahs r = Some p /\ kd = p_keydata p
  | _ => False
  end.
Lemma gossip_scope_not_own a m nd date b l : gossip_scope a m nd date l -> not_own b l.
Proof. unfold not_own. destruct l; simpl; try tauto; intros _ H; eapply own_peer; eauto. Qed.
Lemma gossip_scope_gpg a m nd date l : sc_gpg a l -> gossip_scope a m nd date l.
Proof. destruct l; simpl; tauto. Qed.

Lemma inv_gossip_headers a c m nd k date dec : isalnum a = true -> date_ok k date ->
  nd = false -> is_encrypted m = Ok true -> opens a m dec ->
  inv (ctx a c k) (gossip_scope a m nd date) (process_gossip_headers a (opened m dec) date (msg_id_text m)) (fun _ => True).
Proof.
  intros Ha Hd Hnd Henc Hop. unfold process_gossip_headers.
  eapply inv_bind; [apply inv_lift with (Q := fun p => get_gossip_headers_from_msg (opened m dec) = Ok p); auto|].
  intros pahs Hp.
  set (kds := fun (d : dict pah) => forall r p, dget d r = Some p -> exists p0, dget pahs r = Some p0 /\ p_keydata p = p_keydata p0).
  eapply inv_bind; [apply inv_foldM with (Q := fun st : dict pah * dict pah => kds (fst st))|intros; apply inv_ret; exact I].
  - simpl. intros r p Hr. exists p. auto.
  - intros [d2 pr] r Hst Hin. unfold gossip_recipient.
    destruct (dget d2 r) as [p|] eqn:Er; [|apply inv_ret; exact Hst].
    eapply inv_bind; [apply (inv_import_key _ a c k Ha (fun l => gossip_scope_not_own a m nd date a l) (gossip_scope_gpg a m nd date) p)|].
    intros [kh p'] [H1 [H2 [H3 Hs]]]. cbn [fst snd] in *.
    eapply inv_bind; [apply inv_update_gossip; auto; [intros; eapply gossip_scope_not_own; eauto| |rewrite H2; exact Hs]|].
    + destruct (Hst r p Er) as [p0 [H4 H5]].
      simpl. split; [reflexivity|]. split; [reflexivity|]. split; [exact Hnd|]. split; [exact Henc|]. split; [reflexivity|].
      exists dec, r, pahs, p0. repeat split; auto. congruence.
    + intros _ _. apply inv_ret. simpl. intros r' q. rewrite dget_dset.
      destruct (text_eqb_spec r' r) as [->|Hne].
      * intros [= <-]. destruct (Hst r p Er) as [p0 [H4 H5]]. exists p0. split; [auto|congruence].
      * apply Hst.
Qed.

Lemma inv_rest a c m nd k date p : isalnum a = true -> date_ok k date ->
  inv (ctx a c k) (gossip_scope a m nd date) (rest_prog a m nd date p)
    (fun r => exists g, r = Some (Incoming (msg_id_text m) date (peerstate_chain a (from_addr m)) a p g)).
Proof.
  intros Ha Hok. unfold rest_prog.
  assert (HQ : forall l, gossip_scope a m nd date l -> not_own a l) by (intros; eapply gossip_scope_not_own; eauto).
  apply inv_bind with (Q1 := fun e => e = true -> nd = false /\ is_encrypted m = Ok true).
  - destruct nd; [apply inv_ret; discriminate|]. apply inv_lift. intros b Hb ->. auto.
  - intros enc Henc. apply inv_bind with (Q1 := fun _ => True); [|intros; apply inv_ret; eauto].
    destruct enc; [|apply inv_ret; exact I]. destruct (Henc eq_refl) as [Hnd He].
    eapply inv_bind; [apply (inv_decrypt_mime _ a c k Ha HQ (gossip_scope_gpg a m nd date))|].
    intros [dm infos] [_ [dec [Hop Hdm]]]. simpl in Hdm. subst dm.
    eapply inv_bind; [apply inv_gossip_headers; auto|]. intros gp _.
    eapply inv_bind; [apply inv_own_keyhandle; auto|]. intros; apply inv_ret; exact I.
Qed.

Lemma gossip_path_msgs a m nd date s ls s' : path s ls s' -> Forall (gossip_scope a m nd date) ls ->
  forall b x, isalnum b = true -> msg_entries (peer_log s' b x) = msg_entries (peer_log s b x).
Proof.
  induction 1 as [|s l ls s' Hg Hp IH]; intros HF b x Hb; auto. inversion HF; subst. rewrite IH by auto.
  destruct l; simpl in H1; try tauto.
  - unfold peer_log, alog. rewrite step_gpg. reflexivity.
  - destruct H1 as [-> _]. destruct (text_eqb_spec b a) as [->|Hn]; [apply step_gossip_log|].
    unfold peer_log. rewrite step_frame; auto. simpl. intros H. destruct Hg as [Ha _].
    apply peer_chain_inj in H; tauto.
Qed.

(** ** The effect of process_incoming *)
Definition inc_call (a : text) (m : msg) (ign nd : bool) : api := AIncoming a m ign nd.
Lemma answer_incoming s a m ign nd : WF s -> exists_acct s a ->
  after s (AIncoming a m ign nd) = fst (arun (process_incoming a m ign nd) s) /\
  answer s (AIncoming a m ign nd) =
    match snd (arun (process_incoming a m ign nd) s) with Ok i => Ok (OIncoming i) | Err e => Err e end.
Proof.
  intros Hw He. unfold after, answer. cbn [exec]. rewrite arun_with_account by auto. rewrite arun_bind.
  destruct (arun (process_incoming a m ign nd) s) as [s' [i|e]]; auto.
Qed.

(** the import of the key found in the header *)
Lemma import_run_path a c p s : WF s -> isalnum a = true -> config_of s a = Some c ->
  exists ls, path s ls (fst (import_run a p s)) /\ Forall (sc_gpg a) ls /\ (forall kh p', snd (import_run a p s) = Ok (kh, p') -> said c a (p_keydata p) kh).
Proof.
  intros Hw Ha Hc. unfold import_run. destruct (has_error p).
  - exists []. split; [constructor|]. split; [constructor|]. intros kh p' [= <- _]. exact I.
  - destruct (inv_import_key (sc_gpg a) a c 0 Ha) with (p := p) (s := s) as [[ls [H1 [H2 [_ H3]]]] _]; auto.
    + intros []; simpl; unfold not_own; simpl; tauto.
    + split; [exact Hc|lia].
    + exists ls. split; [exact H1|]. split; [exact H2|]. intros kh p' H. rewrite H in H3. apply H3.
Qed.

(** Processing either does nothing to message entries (it raised, or skipped the mail), or is
    exactly one update of the sender followed by gossip. *)
Inductive inc_effect (a : text) (m : msg) (ign nd : bool) (s s' : ast) (r : result (option incoming)) : Prop :=
| ie_none e : a_logs s' = a_logs s -> r = Err e -> inc_effect a m ign nd s s' r
| ie_skip : a_logs s' = a_logs s -> r = Ok None -> ign = true ->
    has_message (peer_log s a (sender_of m)) (msg_id_text m) = true -> inc_effect a m ign nd s s' r
| ie_update d p s1 kh p' ls :
    dated m d -> parse_one_ac_header_from_msg m [from_addr m] = Ok p ->
    import_run a p (step LTick s) = (s1, Ok (kh, p')) -> a_logs s1 = a_logs s ->
    (ign = true -> has_message (peer_log s a (sender_of m)) (msg_id_text m) = false) ->
    path (step (LMsg a (sender_of m) (msg_id_text m) (Z.min d (clock (a_tick s))) (p_pref p) (p_keydata p) kh) s1) ls s' ->
    Forall (gossip_scope a m nd (Z.min d (clock (a_tick s)))) ls ->
    ((exists e, r = Err e) \/
     exists g, r = Ok (Some (Incoming (msg_id_text m) (Z.min d (clock (a_tick s))) (peerstate_chain a (from_addr m)) a p' g))) ->
    inc_effect a m ign nd s s' r.

Lemma incoming_effect a m ign nd s : WF s -> exists_acct s a ->
  inc_effect a m ign nd s (fst (arun (process_incoming a m ign nd) s)) (snd (arun (process_incoming a m ign nd) s)).
Proof.
  intros Hw He. pose proof (incoming_run a m ign nd s) as HR. cbv zeta in HR.
  pose proof (exists_isalnum s a Hw He) as Ha. destruct He as [c [kg [Hc Hk]]].
  destruct (parse_date_to_float (hget m (L "Date"))) as [d|e] eqn:Ed.
  2:{ rewrite HR. eapply ie_none; reflexivity. }
  destruct (ign && has_message _ _) eqn:Ei.
  { rewrite HR. apply andb_prop in Ei. destruct Ei. apply ie_skip; auto. }
  destruct (parse_one_ac_header_from_msg m [from_addr m]) as [p|e] eqn:Ep.
  2:{ rewrite HR. eapply ie_none; reflexivity. }
  assert (Hw0 : WF (step LTick s)) by (apply step_WF; simpl; auto).
  destruct (import_run_path a c p (step LTick s) Hw0 Ha Hc) as [ls1 [Hp1 [HF1 Hsaid]]].
  pose proof (gpg_path_logs a _ _ _ Hp1 HF1) as Hl1. rewrite step_tick in Hl1.
  pose proof (path_WF _ _ _ Hp1 Hw0) as Hw1. pose proof (path_tick_mono _ _ _ Hp1) as Ht1.
  destruct (import_run a p (step LTick s)) as [s1 [[kh p']|e]] eqn:Er; cbn [fst] in *.
  2:{ rewrite HR. eapply ie_none; [exact Hl1|reflexivity]. }
  set (date := Z.min d (clock (a_tick s))) in *.
  set (l := LMsg a (sender_of m) (msg_id_text m) date (p_pref p) (p_keydata p) kh) in *.
  assert (Hc1 : config_of s1 a = Some c) by (unfold config_of, alog in *; rewrite Hl1; exact Hc).
  assert (Hg : guard s1 l).
  { simpl. split; [exact Ha|]. split; [exists c; split; [exact Hc1|apply (Hsaid kh p'); reflexivity]|]. exists (a_tick s). split; [simpl in Ht1; lia|]. unfold date; lia. }
  assert (Hw2 : WF (step l s1)) by (apply step_WF; auto).
  destruct (inv_rest a c m nd (a_tick (step l s1)) date p' Ha) with (s := step l s1) as [[ls [Hp [HF [_ Hr]]]] _]; auto.
  { exists (a_tick s). pose proof (step_tick_mono s1 l). simpl in Ht1. split; [lia|]. unfold date; lia. }
  { split; [|lia]. unfold config_of. rewrite step_frame; [exact Hc1|]. simpl. intros H. eapply own_peer; eauto. }
  rewrite HR. eapply ie_update with (ls := ls); try eassumption.
  - intros ->. exact Ei.
  - destruct (snd (arun (rest_prog a m nd date p') (step l s1))) as [o|e]; [|left; eauto].
    right. destruct Hr as [_ [g ->]]. exists g. reflexivity.
Qed.

Lemma logs_peer s s' a x : a_logs s' = a_logs s -> peer_log s' a x = peer_log s a x.
Proof. unfold peer_log, alog. intros ->. reflexivity. Qed.

(** in terms of message entries *)
Lemma incoming_msgs a m ign nd s : WF s -> exists_acct s a ->
  let s' := after s (AIncoming a m ign nd) in
  (forall x, x <> sender_of m -> msg_entries (peer_log s' a x) = msg_entries (peer_log s a x)) /\
  ((msg_entries (peer_log s' a (sender_of m)) = msg_entries (peer_log s a (sender_of m)) /\
    forall i, answer s (AIncoming a m ign nd) <> Ok (OIncoming (Some i))) \/
   exists d p kh, dated m d /\ parse_one_ac_header_from_msg m [from_addr m] = Ok p /\
     msg_entries (peer_log s' a (sender_of m)) =
       decide_msgs (peer_log s a (sender_of m)) (msg_id_text m) (Z.min d (clock (a_tick s))) (p_pref p) (p_keydata p) kh).
Proof.
  intros Hw He. cbv zeta. destruct (answer_incoming s a m ign nd Hw He) as [-> ->].
  pose proof (exists_isalnum s a Hw He) as Ha.
  destruct (incoming_effect a m ign nd s Hw He) as [e Hl Hr|Hl Hr Hi Hm|d p s1 kh p' ls Hd Hp Hi Hl1 Hn Hpath HF Hr].
  - split; [intros; rewrite (logs_peer _ _ _ _ Hl); reflexivity|]. left. rewrite (logs_peer _ _ _ _ Hl), Hr.
    split; [reflexivity|]. discriminate.
  - split; [intros; rewrite (logs_peer _ _ _ _ Hl); reflexivity|]. left. rewrite (logs_peer _ _ _ _ Hl), Hr.
    split; [reflexivity|]. discriminate.
  - assert (HM : forall x, msg_entries (peer_log (fst (arun (process_incoming a m ign nd) s)) a x) =
      if text_eqb x (sender_of m) then decide_msgs (peer_log s a (sender_of m)) (msg_id_text m) (Z.min d (clock (a_tick s))) (p_pref p) (p_keydata p) kh
      else msg_entries (peer_log s a x)).
    { intros x. rewrite (gossip_path_msgs _ _ _ _ _ _ _ Hpath HF a x Ha).
      destruct (step_msg_log s1 a (sender_of m) (msg_id_text m) (Z.min d (clock (a_tick s))) (p_pref p) (p_keydata p) kh x) as [-> _].
      rewrite !(logs_peer s s1) by exact Hl1. reflexivity. }
    split.
    + intros x Hx. rewrite HM. apply text_eqb_neq in Hx. rewrite Hx. reflexivity.
    + right. exists d, p, kh. split; [exact Hd|]. split; [exact Hp|]. rewrite HM, text_eqb_refl. reflexivity.
Qed.

End Incoming.
