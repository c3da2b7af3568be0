(** What single steps do: chain names, decision functions of the peer updates, frame and
    preservation of well-formedness. *)
From Verif Require Import Base PyStr Env Prog Chain Gpg Mime States Recommendation Account Steps.

Section StepFacts.
Context {E : Env}.

(** ** Chain names *)
Lemma isalnum_no_colon a : isalnum a = true -> forall x, In x a -> x <> 58%N.
Proof.
  unfold isalnum. intros H x Hx ->. apply andb_prop in H. destruct H as [_ H].
  rewrite forallb_forall in H. specialize (H _ Hx). vm_compute in H. discriminate.
Qed.

Lemma isalnum_nonempty a : isalnum a = true -> a <> [].
Proof. unfold isalnum. intros H ->. discriminate. Qed.

Lemma app_colon_inj (a b x y : text) :
  (forall c, In c a -> c <> 58%N) -> (forall c, In c b -> c <> 58%N) ->
  a ++ 58%N :: x = b ++ 58%N :: y -> a = b /\ x = y.
Proof.
  revert b; induction a as [|c a IH]; intros [|d b] Ha Hb H; simpl in H; inversion H; subst.
  - auto.
  - exfalso. apply (Hb 58%N); simpl; auto.
  - exfalso. apply (Ha 58%N); simpl; auto.
  - destruct (IH b) as [-> ->]; auto; intros; [apply Ha | apply Hb]; simpl; auto.
Qed.

Lemma own_chain_inj a b : own_chain a = own_chain b -> a = b.
Proof. unfold own_chain. apply app_inv_head. Qed.
Lemma oob_chain_inj a b : oob_chain a = oob_chain b -> a = b.
Proof. unfold oob_chain. apply app_inv_head. Qed.
Lemma peer_chain_inj a b x y : isalnum a = true -> isalnum b = true ->
  peer_chain a x = peer_chain b y -> a = b /\ x = y.
Proof.
  unfold peer_chain, peer_prefix. intros Ha Hb H. rewrite <- !app_assoc in H. apply app_inv_head in H.
  apply app_colon_inj in H; auto; apply isalnum_no_colon; auto.
Qed.
Lemma peer_chain_addr_inj a x y : peer_chain a x = peer_chain a y -> x = y.
Proof. unfold peer_chain. apply app_inv_head. Qed.

Lemma own_oob a b : own_chain a <> oob_chain b. Proof. intros H. inversion H. Qed.
Lemma own_peer a b x : own_chain a <> peer_chain b x. Proof. intros H. inversion H. Qed.
Lemma own_mgr a : own_chain a <> mgr_chain. Proof. intros H. inversion H. Qed.
Lemma oob_peer a b x : oob_chain a <> peer_chain b x. Proof. intros H. inversion H. Qed.
Lemma oob_mgr a : oob_chain a <> mgr_chain. Proof. intros H. inversion H. Qed.
Lemma peer_mgr a x : peer_chain a x <> mgr_chain. Proof. intros H. inversion H. Qed.

Lemma match_account_own a b : isalnum b = true -> match_account a (own_chain b) = text_eqb b a.
Proof.
  intros Hb. unfold match_account, own_chain. change (L "own:" ++ b) with (L "own" ++ 58%N :: b).
  rewrite split_max_app by (intros x Hx ->; repeat (destruct Hx as [Hx|Hx]; [discriminate|]); exact Hx).
  rewrite split_max_no by (apply isalnum_no_colon; auto). reflexivity.
Qed.
Lemma match_account_peer a b x : isalnum b = true -> match_account a (peer_chain b x) = text_eqb b a.
Proof.
  intros Hb. unfold match_account, peer_chain, peer_prefix.
  replace ((L "peer:" ++ b ++ L ":") ++ x) with (L "peer" ++ 58%N :: (b ++ 58%N :: x))
    by (rewrite <- !app_assoc; reflexivity).
  rewrite split_max_app by (intros y Hy ->; repeat (destruct Hy as [Hy|Hy]; [discriminate|]); exact Hy).
  rewrite split_max_app by (apply isalnum_no_colon; auto).
  destruct (split_max 58 0 x) eqn:Es; reflexivity.
Qed.
Lemma match_account_mgr a : match_account a mgr_chain = false.
Proof. reflexivity. Qed.
Lemma match_account_oob a b : isalnum b = true -> match_account a (oob_chain b) = false.
Proof.
  intros Hb. unfold match_account, oob_chain. change (L "oob:" ++ b) with (L "oob" ++ 58%N :: b).
  rewrite split_max_app by (intros x Hx ->; repeat (destruct Hx as [Hx|Hx]; [discriminate|]); exact Hx).
  rewrite split_max_no by (apply isalnum_no_colon; auto). reflexivity.
Qed.
Lemma peer_addr_chain a x : isalnum a = true -> peer_addr (peer_chain a x) = x.
Proof.
  intros Ha. unfold peer_addr, peer_chain, peer_prefix.
  replace ((L "peer:" ++ a ++ L ":") ++ x) with (L "peer" ++ 58%N :: (a ++ 58%N :: x))
    by (rewrite <- !app_assoc; reflexivity).
  rewrite split_max_app by (intros y Hy ->; repeat (destruct Hy as [Hy|Hy]; [discriminate|]); exact Hy).
  rewrite split_max_app by (apply isalnum_no_colon; auto).
  destruct x; reflexivity.
Qed.

(** ** Appending *)
Definition app_log (s : ast) (n : text) (e : entry) : ast := fst (astep (CAppend n e) s).

Lemma alog_app s n e n' :
  alog (app_log s n e) n' = if text_eqb n' n then Block (clock (a_tick s)) e :: alog s n else alog s n'.
Proof. unfold app_log, alog; simpl. rewrite dget_dset. destruct (text_eqb n' n); reflexivity. Qed.

Lemma arun_append s n e : arun (perform (CAppend n e)) s = (app_log s n e, Ok tt).
Proof. reflexivity. Qed.

(** ** update_from_msg as a decision on the log of the peer *)
Definition msg_decide (l : list block) (id : text) (date : Z)
  (pref : option text) (kd : option bytes) (kh : option text) : result (option entry) :=
  if Z.ltb date (autocrypt_timestamp l) then Ok None
  else
    let dup := match get_message_entry l id with
               | Some e => Z.eqb (me_date e) date && eq_opt (me_keydata e) kd
                           && eq_opt (me_kh e) kh && eq_opt (me_pref e) pref
               | None => false end in
    if dup then Ok None
    else
      let kd' := match kd with Some k => k | None => [] end in
      if negb (nonempty kd') then
        if Z.ltb (last_seen l) date then
          Ok (Some (EMsg (MsgEntry id date (L "nopreference") [] [])))
        else Ok None
      else
        match mk_msg_entry id date pref kd' (match kh with Some h => h | None => [] end) with
        | Ok e => Ok (Some e)
        | Err x => Err x
        end.

Definition decided (s : ast) (n : text) (d : result (option entry)) : ast * result unit :=
  match d with
  | Ok None => (s, Ok tt)
  | Ok (Some e) => (app_log s n e, Ok tt)
  | Err x => (s, Err x)
  end.

Lemma update_from_msg_run chain id date pref kd kh s :
  arun (update_from_msg chain id date pref kd kh) s =
  decided s chain (msg_decide (alog s chain) id date pref kd kh).
Proof.
  unfold update_from_msg, msg_decide, decided. cbn [bind perform].
  unfold arun. cbn [run astep].
  destruct (Z.ltb date _); [reflexivity|].
  set (dup := match get_message_entry (alog s chain) id with Some _ => _ | None => _ end). destruct dup; [reflexivity|].
  destruct (nonempty _); cbn [negb].
  - destruct (mk_msg_entry _ _ _ _ _); reflexivity.
  - destruct (Z.ltb _ _); reflexivity.
Qed.

Lemma msg_decide_some l id date pref kd kh e : msg_decide l id date pref kd kh = Ok (Some e) ->
  (autocrypt_timestamp l <= date)%Z /\
  ((exists p k, pref = Some p /\ valid_pref p = true /\ kd = Some k /\ nonempty k = true /\
      e = EMsg (MsgEntry id date p k (match kh with Some h => h | None => [] end))) \/
   ((kd = None \/ kd = Some []) /\ (last_seen l < date)%Z /\ e = EMsg (MsgEntry id date (L "nopreference") [] []))).
Proof.
  unfold msg_decide. destruct (Z.ltb_spec date (autocrypt_timestamp l)); [discriminate|].
  set (dup := match get_message_entry l id with Some _ => _ | None => _ end).
  destruct dup; [discriminate|].
  destruct kd as [[|b k]|]; cbn [nonempty negb].
  - destruct (Z.ltb_spec (last_seen l) date); [|discriminate]. intros [= <-]. split; [assumption|]. right; auto.
  - unfold mk_msg_entry. destruct pref as [p|]; [|discriminate]. destruct (valid_pref p) eqn:Ev; [|discriminate].
    intros [= <-]. split; [assumption|]. left. exists p, (b :: k). auto.
  - destruct (Z.ltb_spec (last_seen l) date); [|discriminate]. intros [= <-]. split; [assumption|]. right; auto.
Qed.

Definition gossip_decide (l : list block) (id : text) (date : Z)
  (kd : option bytes) (kh : option text) : result (option entry) :=
  if Z.ltb date (autocrypt_timestamp l) then Ok None
  else
    let kd' := match kd with Some k => k | None => [] end in
    if negb (nonempty kd') then Err AssertionError
    else
      let dup := match get_gossip_message_entry l id with
                 | Some e => Z.eqb (ge_date e) date && eq_opt (ge_keydata e) kd
                             && eq_opt (ge_kh e) kh
                 | None => false end in
      if dup then Ok None
      else match mk_gossip_entry id date kd' kh with Ok e => Ok (Some e) | Err x => Err x end.

Lemma update_from_msg_gossip_run chain id date kd kh s :
  arun (update_from_msg_gossip chain id date kd kh) s =
  decided s chain (gossip_decide (alog s chain) id date kd kh).
Proof.
  unfold update_from_msg_gossip, gossip_decide, decided. cbn [bind perform].
  unfold arun. cbn [run astep].
  destruct (Z.ltb date _); [reflexivity|].
  destruct (nonempty _); cbn [negb]; [|reflexivity].
  set (dup := match get_gossip_message_entry (alog s chain) id with Some _ => _ | None => _ end). destruct dup; [reflexivity|].
  destruct (mk_gossip_entry _ _ _ _); reflexivity.
Qed.

Lemma gossip_decide_some l id date kd kh e : gossip_decide l id date kd kh = Ok (Some e) ->
  (autocrypt_timestamp l <= date)%Z /\
  exists k h, kd = Some k /\ nonempty k = true /\ kh = Some h /\ e = EGossip (GossipEntry id date k h).
Proof.
  unfold gossip_decide. destruct (Z.ltb_spec date (autocrypt_timestamp l)); [discriminate|].
  destruct kd as [[|b k]|]; cbn [nonempty negb]; try discriminate.
  set (dup := match get_gossip_message_entry l id with Some _ => _ | None => _ end).
  destruct dup; [discriminate|].
  unfold mk_gossip_entry. destruct kh; [|discriminate]. intros [= <-]. split; [assumption|].
  exists (b :: k), t. auto.
Qed.

(** ** The effect of each step on the logs *)
Lemma step_tick s : a_logs (step LTick s) = a_logs s. Proof. reflexivity. Qed.
Lemma step_uuid s : a_logs (step LUuid s) = a_logs s. Proof. reflexivity. Qed.
Lemma step_gpg s a argv i t : a_logs (step (LGpg a argv i t) s) = a_logs s.
Proof. unfold step, step_prog, arun; simpl. destruct (gpg _ _ _ _). reflexivity. Qed.

(** chains a step may write *)
Definition writes (l : label) (n : text) : Prop :=
  match l with
  | LTick | LUuid | LGpg _ _ _ _ => False
  | LMsg a addr _ _ _ _ _ | LGossip a addr _ _ _ _ => n = peer_chain a addr
  | LCfg a _ | LKeygen a _ _ => n = own_chain a
  | LVerif a _ => n = oob_chain a
  | LVersion => n = mgr_chain
  | LRemove a => match_account a n = true
  | LRm => True
  end.

Lemma decided_log s n d n' : n' <> n -> alog (fst (decided s n d)) n' = alog s n'.
Proof.
  intros H. destruct d as [[e|]|x]; simpl; auto. rewrite alog_app.
  apply text_eqb_neq in H. rewrite H. reflexivity.
Qed.

Lemma set_version_run s v : arun (set_version v) s =
  match version_of s with
  | Some _ => (s, Err AssertionError)
  | None => (app_log s mgr_chain (EACfg (ACfgEntry v)), Ok tt)
  end.
Proof.
  unfold set_version, version_of, arun. cbn [bind perform run astep].
  destruct (hd_error _); reflexivity.
Qed.

Lemma step_frame s l n : ~ writes l n -> alog (step l s) n = alog s n.
Proof.
  destruct l; simpl; intros H; try (unfold alog; simpl; reflexivity).
  - unfold alog. rewrite step_gpg. reflexivity.
  - unfold step, step_prog. rewrite update_from_msg_run. apply decided_log. auto.
  - unfold step, step_prog. rewrite update_from_msg_gossip_run. apply decided_log. auto.
  - change (alog (app_log s (own_chain acct) (ECfg c)) n = alog s n). rewrite alog_app.
    apply text_eqb_neq in H. rewrite H. reflexivity.
  - change (alog (app_log s (own_chain acct) (EKeygen (KeygenEntry kd kh))) n = alog s n). rewrite alog_app.
    apply text_eqb_neq in H. rewrite H. reflexivity.
  - change (alog (app_log s (oob_chain acct) (EVerif e)) n = alog s n). rewrite alog_app.
    apply text_eqb_neq in H. rewrite H. reflexivity.
  - unfold step, step_prog. rewrite set_version_run. destruct (version_of s); [reflexivity|].
    simpl fst. rewrite alog_app. apply text_eqb_neq in H. rewrite H. reflexivity.
  - unfold step, step_prog, remove_account, alog, arun. cbn [perform run astep fst a_logs].
    rewrite dget_dremove_if. destruct (match_account acct n); [exfalso; apply H; reflexivity|reflexivity].
  - tauto.
Qed.

(** Clock and counters only grow. *)
Lemma step_tick_mono s l : a_tick s <= a_tick (step l s).
Proof.
  destruct l; try (simpl; lia).
  - unfold step, step_prog, arun; simpl. destruct (gpg _ _ _ _); simpl; lia.
  - unfold step, step_prog. rewrite update_from_msg_run. destruct (msg_decide _ _ _ _ _ _) as [[|]|]; simpl; lia.
  - unfold step, step_prog. rewrite update_from_msg_gossip_run. destruct (gossip_decide _ _ _ _ _) as [[|]|]; simpl; lia.
  - unfold step, step_prog. rewrite set_version_run. destruct (version_of s); simpl; lia.
Qed.

Lemma path_tick_mono s ls s' : path s ls s' -> a_tick s <= a_tick s'.
Proof.
  induction 1 as [|s l ls s' Hg Hp IH]; auto. pose proof (step_tick_mono s l). lia.
Qed.

(** A path leaves alone every chain none of its steps writes. *)
Lemma path_frame s ls s' n : path s ls s' -> (forall l, In l ls -> ~ writes l n) -> alog s' n = alog s n.
Proof.
  induction 1 as [|s l ls s' Hg Hp IH]; intros H; auto.
  rewrite IH; [|intros; apply H; simpl; auto]. apply step_frame. apply H; simpl; auto.
Qed.

(** ** Preservation of well-formedness *)
Lemma WF_init : WF ast0.
Proof. constructor; simpl; [constructor | discriminate | congruence]. Qed.

Lemma log_ok_inv n l : log_ok n l ->
  (n = mgr_chain /\ exists t, l = [Block t (EACfg (ACfgEntry (L "0.1")))]) \/
  (exists a, n = own_chain a /\ isalnum a = true /\ own_ok a l) \/
  (exists a, n = oob_chain a /\ isalnum a = true /\ l <> [] /\ Forall is_verif l) \/
  (exists a x, n = peer_chain a x /\ isalnum a = true /\ l <> [] /\ peer_ok l).
Proof. destruct 1; eauto 12. Qed.

Ltac names := 
  match goal with
  | H : own_chain _ = mgr_chain |- _ => exfalso; exact (own_mgr _ H)
  | H : mgr_chain = own_chain _ |- _ => exfalso; exact (own_mgr _ (eq_sym H))
  | H : oob_chain _ = mgr_chain |- _ => exfalso; exact (oob_mgr _ H)
  | H : mgr_chain = oob_chain _ |- _ => exfalso; exact (oob_mgr _ (eq_sym H))
  | H : peer_chain _ _ = mgr_chain |- _ => exfalso; exact (peer_mgr _ _ H)
  | H : mgr_chain = peer_chain _ _ |- _ => exfalso; exact (peer_mgr _ _ (eq_sym H))
  | H : own_chain _ = oob_chain _ |- _ => exfalso; exact (own_oob _ _ H)
  | H : oob_chain _ = own_chain _ |- _ => exfalso; exact (own_oob _ _ (eq_sym H))
  | H : own_chain _ = peer_chain _ _ |- _ => exfalso; exact (own_peer _ _ _ H)
  | H : peer_chain _ _ = own_chain _ |- _ => exfalso; exact (own_peer _ _ _ (eq_sym H))
  | H : oob_chain _ = peer_chain _ _ |- _ => exfalso; exact (oob_peer _ _ _ H)
  | H : peer_chain _ _ = oob_chain _ |- _ => exfalso; exact (oob_peer _ _ _ (eq_sym H))
  | H : own_chain _ = own_chain _ |- _ => apply own_chain_inj in H
  | H : oob_chain _ = oob_chain _ |- _ => apply oob_chain_inj in H
  end.

Lemma log_ok_own a l : log_ok (own_chain a) l -> isalnum a = true /\ own_ok a l.
Proof.
  intros H. apply log_ok_inv in H. destruct H as [[H _]|[[b [H [H1 H2]]]|[[b [H _]]|[b [x [H _]]]]]]; names.
  subst; auto.
Qed.
Lemma log_ok_oob a l : log_ok (oob_chain a) l -> isalnum a = true /\ l <> [] /\ Forall is_verif l.
Proof.
  intros H. apply log_ok_inv in H. destruct H as [[H _]|[[b [H [H1 H2]]]|[[b [H H1]]|[b [x [H _]]]]]]; names.
  subst; auto.
Qed.
Lemma log_ok_peer a x l : log_ok (peer_chain a x) l -> l <> [] /\ peer_ok l.
Proof.
  intros H. apply log_ok_inv in H. destruct H as [[H _]|[[b [H [H1 H2]]]|[[b [H H1]]|[b [y [H H1]]]]]]; try names.
  tauto.
Qed.
Lemma log_ok_mgr l : log_ok mgr_chain l -> exists t, l = [Block t (EACfg (ACfgEntry (L "0.1")))].
Proof.
  intros H. apply log_ok_inv in H. destruct H as [[_ H]|[[b [H [H1 H2]]]|[[b [H H1]]|[b [y [H H1]]]]]]; try names.
  exact H.
Qed.

Section Wf.
Variable s : ast.
Hypothesis HW : WF s.

Lemma wf_peer a x : peer_ok (peer_log s a x).
Proof.
  unfold peer_log, alog. destruct (dget _ _) eqn:Eg; [|constructor].
  apply (wf_logs _ HW) in Eg. apply log_ok_peer in Eg; tauto.
Qed.
Lemma wf_own a : alog s (own_chain a) = [] \/ (isalnum a = true /\ own_ok a (alog s (own_chain a))).
Proof.
  unfold alog. destruct (dget _ _) eqn:Eg; [|auto]. right.
  apply (wf_logs _ HW) in Eg. apply log_ok_own in Eg; tauto.
Qed.
Lemma wf_oob a : Forall is_verif (alog s (oob_chain a)).
Proof.
  unfold alog. destruct (dget _ _) eqn:Eg; [|constructor].
  apply (wf_logs _ HW) in Eg. apply log_ok_oob in Eg; tauto.
Qed.
Lemma wf_mgr : match version_of s with
               | Some v => ac_version v = L "0.1"
               | None => dget (a_logs s) mgr_chain = None end.
Proof.
  unfold version_of, alog. destruct (dget _ _) eqn:Eg; [|reflexivity].
  apply (wf_logs _ HW) in Eg. apply log_ok_mgr in Eg. destruct Eg as [t ->]. reflexivity.
Qed.

Lemma alog_nonempty n : alog s n <> [] -> a_logs s <> [].
Proof. unfold alog. intros H H0. rewrite H0 in H. apply H. reflexivity. Qed.
Lemma config_version a : config_of s a <> None -> version_of s <> None.
Proof.
  intros H. apply HW. apply alog_nonempty with (n := own_chain a). intros H0. apply H. unfold config_of. rewrite H0. reflexivity.
Qed.

Lemma version_app n e : version_of s <> None -> (n <> mgr_chain \/ exists v, e = EACfg v) -> version_of (app_log s n e) <> None.
Proof.
  unfold version_of. rewrite alog_app. destruct (text_eqb_spec mgr_chain n) as [<-|Hn]; [|auto].
  intros _ [H|[v ->]]; [congruence|]. discriminate.
Qed.

Lemma WF_app n e : (forall t, log_ok n (Block t e :: alog s n)) -> version_of s <> None \/ n = mgr_chain -> WF (app_log s n e).
Proof.
  intros H Hv. constructor; simpl.
  - apply dset_NoDup, HW.
  - intros n' l'. rewrite dget_dset. destruct (text_eqb_spec n' n) as [->|Hne].
    + intros [= <-]. apply H.
    + apply HW.
  - intros _. unfold version_of. rewrite alog_app. destruct (text_eqb_spec mgr_chain n) as [<-|Hne].
    + specialize (H 0%Z). apply log_ok_mgr in H. destruct H as [t H]. injection H as _ -> _. discriminate.
    + destruct Hv as [Hv|Hv]; [exact Hv|congruence].
Qed.

Lemma own_ok_config a l : own_ok a l -> exists c, latest_config l = Some c /\ valid_cfg c = true /\ cf_name c = a.
Proof.
  induction 1 as [t c Hv Hn|t c l Ho IH Hv Hn|t kd kh l Ho IH Hk]; cbn; eauto.
Qed.

Lemma decided_WF a x d : isalnum a = true -> version_of s <> None ->
  (forall e, d = Ok (Some e) -> forall t, peer_ok (Block t e :: peer_log s a x)) ->
  WF (fst (decided s (peer_chain a x) d)).
Proof.
  intros Ha Hv H. destruct d as [[e|]|]; simpl; auto.
  apply WF_app; [|auto]. intros t. apply lo_peer; auto. discriminate.
Qed.

Lemma step_WF l : guard s l -> WF (step l s).
Proof.
  intros Hg. destruct l; simpl in Hg.
  - constructor; apply HW.
  - constructor; apply HW.
  - constructor; [| |unfold version_of, alog]; rewrite step_gpg; apply HW.
  - destruct Hg as [Ha [[c0 [Hc _]] _]]. assert (Hc' : config_of s acct <> None) by congruence. apply config_version in Hc'. unfold step, step_prog. rewrite update_from_msg_run. apply decided_WF; auto.
    intros e Hd t. fold (peer_log s acct addr) in Hd. pose proof (wf_peer acct addr) as Hok.
    apply msg_decide_some in Hd. destruct Hd as [Hd [[p [k [-> [Hv [-> [Hk ->]]]]]]|[_ [Hl ->]]]].
    + apply pk_ac; auto.
    + apply pk_noac; auto.
  - destruct Hg as [Ha [[c0 [Hc _]] _]]. assert (Hc' : config_of s acct <> None) by congruence. apply config_version in Hc'. unfold step, step_prog. rewrite update_from_msg_gossip_run. apply decided_WF; auto.
    intros e Hd t. fold (peer_log s acct addr) in Hd. pose proof (wf_peer acct addr) as Hok.
    apply gossip_decide_some in Hd. destruct Hd as [Hd [k [h [-> [Hk [-> ->]]]]]].
    apply pk_gossip; auto.
  - destruct Hg as [Hve [Ha [Hv [Hn Hm]]]]. apply WF_app; [|auto]. intros t. apply lo_own; auto.
    destruct (wf_own acct) as [H0|[_ H0]].
    + rewrite H0. apply ok_cfg0; auto.
    + apply ok_cfg; auto.
  - destruct Hg as [Ha [Hk Hc]]. pose proof (config_version _ Hc). apply WF_app; [|auto]. intros t. apply lo_own; auto.
    destruct (wf_own acct) as [H0|[_ H0]].
    + exfalso. apply Hc. unfold config_of. rewrite H0. reflexivity.
    + apply ok_keygen; auto.
  - destruct Hg as [Ha Hc]. apply config_version in Hc. apply WF_app; [|auto]. intros t. apply lo_oob; auto; [discriminate|]. constructor; [exact I|apply wf_oob].
  - unfold step, step_prog. rewrite set_version_run. pose proof wf_mgr as Hm.
    destruct (version_of s); [exact HW|]. simpl. apply WF_app; [|auto]. intros t.
    unfold alog. rewrite Hm. apply lo_mgr.
  - constructor; simpl.
    + apply dremove_if_NoDup, HW.
    + intros n l. rewrite dget_dremove_if. destruct (match_account acct n); [discriminate|]. apply HW.
    + intros H. unfold version_of, alog. simpl. rewrite dget_dremove_if, match_account_mgr.
      apply (wf_version _ HW). intros H0. apply H. rewrite H0. reflexivity.
  - constructor; simpl; [constructor | discriminate | congruence].
Qed.
End Wf.

Lemma path_WF s ls s' : path s ls s' -> WF s -> WF s'.
Proof. induction 1; auto. intros. apply IHpath, step_WF; auto. Qed.

End StepFacts.
