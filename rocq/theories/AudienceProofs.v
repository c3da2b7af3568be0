(** Proofs about who can read an encrypted mail (C88, C89). *)
From Verif Require Import Base PyStr Utf8 Base64 Env Prog Chain Gpg Mime States Recommendation Account Cmdline Bot Fs Api Steps StepFacts Exec ApiScope
  Spec Obs PeerSpec Incoming PeerFacts PeerProofs RecSpec RecProofs HeaderProofs OutSpec OutProofs OutProofs2 Quiet AcctSpec CliSpec CliProofs CliProofs2
  Commands CmdSpec CmdProofs CmdProofs2 SeenSpec SeenProofs AudienceSpec.

Section AudienceProofs.
Context {E : Env}.

Lemma c33_encrypted s a m o : reachable s -> answer s (AOutgoing a m) = Ok (OOutgoing o) -> is_encrypted m = Ok false ->
  is_encrypted (out_msg o) = Ok true ->
  exists own khs, encrypted_for s (after s (AOutgoing a m)) a m o own khs /\
    (forall x, In x (targets m) \/ x = from_addr m -> exists kh, key_in_use s a (norm x) kh /\ In kh khs) /\
    (forall kh, In kh khs -> exists x, (In x (targets m) \/ x = from_addr m) /\ key_in_use s a (norm x) kh).
Proof.
  intros Hr H H1 H2. destruct (c33 s a m o Hr H H1 H2) as [c [own [khs [data [enc [K1 [K2 [K3 [K4 K5]]]]]]]]].
  exists own, khs. split; [|split; assumption]. split; [exact H1|]. split; [exact H2|]. split; [eauto|]. eauto.
Qed.

Theorem c88 : forall s a m o, reachable s -> answer s (AOutgoing a m) = Ok (OOutgoing o) -> is_encrypted m = Ok false ->
  is_encrypted (out_msg o) = Ok true ->
  exists own khs kh, encrypted_for s (after s (AOutgoing a m)) a m o own khs /\ sender_key s a m kh /\
    (kh = [] -> In own khs) /\ (kh <> [] -> In kh khs).
Proof.
  intros s a m o Hr H H1 H2. destruct (c33_encrypted s a m o Hr H H1 H2) as [own [khs [K1 [K2 _]]]].
  destruct (K2 (from_addr m) (or_intror eq_refl)) as [kh [[v [V1 V2]] V3]].
  exists own, khs, (pv_keyhandle v). split; [exact K1|]. split; [exists v; auto|].
  destruct K1 as [_ [_ [[c Hc] _]]]. destruct V2 as [[V2 ->]|[V2 [c' [V4 _]]]].
  - split; [congruence|]. intros _. exact V3.
  - split; [|congruence]. intros _. rewrite Hc in V4. injection V4 as _ ->. exact V3.
Qed.

(** computing the keys a mail is encrypted to *)
Definition used (s : ast) (a y : text) : option text :=
  match peer_of s a y, own_of s a with
  | Some v, Some (_, own) => Some (if nonempty (pv_keyhandle v) then pv_keyhandle v else own) | _, _ => None end.
Lemma used_spec s a y kh c own : own_of s a = Some (c, own) -> key_in_use s a y kh -> used s a y = Some kh.
Proof.
  intros Hc [v [V1 [[V2 ->]|[V2 [c' [V3 _]]]]]]; unfold used; rewrite V1.
  - rewrite Hc. destruct (pv_keyhandle v); [congruence|reflexivity].
  - rewrite V3, V2. reflexivity.
Qed.
Lemma encrypted_to s a m l : reachable s -> is_encrypted m = Ok false ->
  match answer s (AOutgoing a m) with Ok (OOutgoing o) => is_encrypted (out_msg o) = Ok true | _ => False end ->
  map (fun x => used s a (norm x)) (targets m ++ [from_addr m]) = map Some l ->
  exists o own khs, answer s (AOutgoing a m) = Ok (OOutgoing o) /\
    encrypted_for s (after s (AOutgoing a m)) a m o own khs /\ forall kh, In kh khs <-> In kh l.
Proof.
  intros Hr H1 H2 Hl. destruct (answer s (AOutgoing a m)) as [[]|] eqn:Ha; try contradiction.
  destruct (c33_encrypted s a m _ Hr Ha H1 H2) as [own [khs [K1 [K2 K3]]]]. eexists. exists own, khs. split; [reflexivity|].
  split; [exact K1|]. destruct K1 as [_ [_ [[c Hc] _]]]. intros kh. split; intros Hk.
  - destruct (K3 kh Hk) as [x [Hx Hu]]. apply (used_spec _ _ _ _ _ _ Hc) in Hu.
    assert (Hi : In (Some kh) (map Some l)).
    { rewrite <- Hl. apply in_map_iff. exists x. split; [exact Hu|]. apply in_or_app. destruct Hx as [Hx| ->]; simpl; auto. }
    apply in_map_iff in Hi as [k [[= ->] Hk']]. exact Hk'.
  - assert (Hi : In (Some kh) (map Some l)) by (apply in_map; exact Hk). rewrite <- Hl in Hi.
    apply in_map_iff in Hi as [x [Hu Hx]]. destruct (K2 x) as [k [Kk Ki]].
    { apply in_app_or in Hx as [Hx|[<-|[]]]; auto. }
    apply (used_spec _ _ _ _ _ _ Hc) in Kk. congruence.
Qed.

Lemma keyhandle_of l l' : latest_ac_entry l' = latest_ac_entry l -> latest_gossip_entry l' = latest_gossip_entry l ->
  public_keyhandle l' = public_keyhandle l.
Proof. intros H1 H2. unfold public_keyhandle, entry_for_encryption, has_direct_key. rewrite H1, H2. reflexivity. Qed.

Theorem c88_session : forall s h a m o, reachable s -> sender_key s a m [] -> (forall c, In c h -> plain a c = true) ->
  (forall f, ~ offered_in s h a (norm (norm (from_addr m))) f) -> (forall g, ~ gossiped_in s h a (norm (norm (from_addr m))) g) ->
  let s' := after_all s h in
  answer s' (AOutgoing a m) = Ok (OOutgoing o) -> is_encrypted m = Ok false -> is_encrypted (out_msg o) = Ok true ->
  exists own khs, encrypted_for s' (after s' (AOutgoing a m)) a m o own khs /\ In own khs.
Proof.
  intros s h a m o Hr [v [V1 V2]] Hp Ho Hg. cbv zeta. intros H H1 H2.
  destruct (c88 (after_all s h) a m o (reachable_after_all _ _ Hr) H H1 H2) as [own [khs [kh [K1 [[w [W1 W2]] [K2 _]]]]]].
  exists own, khs. split; [exact K1|]. apply K2. clear K2.
  destruct (c08 s h a _ v Hr V1 Hp) as [v1 [A1 [_ [A2 _]]]]. destruct (c12_session s h a _ v Hr V1 Hp) as [v2 [B1 B2]].
  rewrite W1 in A1, B1. injection A1 as <-. injection B1 as <-.
  destruct A2 as [A2|[e [_ A2]]]; [|destruct (Ho _ A2)]. destruct B2 as [B2|[g [_ B2]]]; [|destruct (Hg _ B2)].
  apply peer_of_some in V1 as [_ ->]; [|apply reachable_WF; exact Hr].
  apply peer_of_some in W1 as [_ ->]; [|apply reachable_WF, reachable_after_all; exact Hr].
  rewrite <- W2, <- V2. apply keyhandle_of; assumption.
Qed.

Theorem c89 : forall (Sh : Shell) s args m p, reachable s -> hget m (L "Resent-From") = None \/ hget m (L "Resent-From") = Some [] ->
  outcome_of s (CmdSendmail args m) = Ok p ->
  exists a o t i path, first_of s (from_addr m) a /\ answer s (AOutgoing a m) = Ok (OOutgoing o) /\
    as_string (out_msg o) = Ok t /\ utf8 i = Some t /\ pr_started p = Some (path :: args, i) /\
    (is_encrypted m = Ok false -> is_encrypted (out_msg o) = Ok true ->
     exists own khs, encrypted_for s (left_by s (CmdSendmail args m)) a m o own khs /\
       (forall y, In y (envelope args m) -> In (norm y) (map norm (targets m)) \/ norm y = norm (from_addr m) ->
         exists kh, key_in_use s a (norm y) kh /\ In kh khs) /\
       forall kh, In kh khs -> exists x, (In x (targets m) \/ x = from_addr m) /\ key_in_use s a (norm x) kh).
Proof.
  intros Sh s args m p Hr Hres H. apply c62_sent in H as [Hargs [m' [t [i [path [H1 [H2 [H3 [H4 [H5 _]]]]]]]]]].
  destruct (cli_outgoing_inv s m m' Hr Hres H1) as [a [o [A1 [A2 [A3 ->]]]]].
  exists a, o, t, i, path. split; [exact A1|]. split; [exact A2|]. split; [exact H2|]. split; [exact H3|]. split; [exact H5|].
  intros E1 E2. destruct (c33_encrypted s a m o Hr A2 E1 E2) as [own [khs [K1 [K2 K3]]]].
  assert (Hl : left_by s (CmdSendmail args m) = after s (AOutgoing a m)).
  { rewrite <- A3. apply c61_calls. destruct args; [congruence|reflexivity]. }
  exists own, khs. rewrite Hl. split; [exact K1|]. split; [|exact K3]. intros y _ [Hy|Hy].
  - apply in_map_iff in Hy as [x [<- Hx]]. apply K2. auto.
  - rewrite Hy. apply K2. auto.
Qed.

Lemma unreadable_by {Sh : Shell} s args m y a l k : reachable s ->
  match outcome_of s (CmdSendmail args m) with
  | Ok p => (pr_exit p, option_map fst (pr_started p)) = (0%Z, Some (L "/usr/sbin/sendmail" :: args)) | Err _ => False end ->
  is_encrypted m = Ok false ->
  match answer s (AOutgoing a m) with Ok (OOutgoing o) => is_encrypted (out_msg o) = Ok true | _ => False end ->
  map (fun x => used s a (norm x)) (targets m ++ [from_addr m]) = map Some l ->
  In y (envelope args m) -> option_map pv_keyhandle (peer_of s a y) = Some k -> k <> [] -> ~ In k l -> unreadable s args m y.
Proof.
  intros Hr H1 H2 H3 H4 H5 H6 H7 H8. destruct (outcome_of s (CmdSendmail args m)) as [p|] eqn:Ep; [|contradiction].
  injection H1 as H1 H1'. destruct (encrypted_to s a m l Hr H2 H3 H4) as [o [own [khs [A1 [A2 A3]]]]].
  destruct (peer_of s a y) as [v|] eqn:Ev; [|discriminate H6]. injection H6 as <-.
  exists p, a, o, own, khs, v. do 8 (split; [assumption|]). split; [exact H7|]. rewrite A3. exact H8.
Qed.

Lemma only_options args m : (forall w, In w args -> is_option w = true) -> hget_all m (L "bcc") = [] ->
  forall y, In y (envelope args m) -> In y (targets m).
Proof.
  intros Ho Hb y Hy. unfold envelope in Hy. apply in_app_or in Hy as [Hy|Hy].
  - apply filter_In in Hy as [Hy Hn]. rewrite (Ho _ Hy) in Hn. discriminate.
  - destruct (existsb _ _); [|destruct Hy]. rewrite Hb, app_nil_r in Hy. exact Hy.
Qed.
Theorem c89_header : forall (Sh : Shell) s args m p, reachable s -> hget m (L "Resent-From") = None \/ hget m (L "Resent-From") = Some [] ->
  (forall w, In w args -> is_option w = true) -> hget_all m (L "bcc") = [] -> outcome_of s (CmdSendmail args m) = Ok p ->
  exists a o t i path, first_of s (from_addr m) a /\ answer s (AOutgoing a m) = Ok (OOutgoing o) /\
    as_string (out_msg o) = Ok t /\ utf8 i = Some t /\ pr_started p = Some (path :: args, i) /\
    (is_encrypted m = Ok false -> is_encrypted (out_msg o) = Ok true ->
     exists own khs, encrypted_for s (left_by s (CmdSendmail args m)) a m o own khs /\
       forall y, In y (envelope args m) -> exists kh, key_in_use s a (norm y) kh /\ In kh khs).
Proof.
  intros Sh s args m p Hr Hres Ho Hb H. destruct (c89 Sh s args m p Hr Hres H) as [a [o [t [i [path [A1 [A2 [A3 [A4 [A5 A6]]]]]]]]]].
  exists a, o, t, i, path. do 5 (split; [assumption|]). intros E1 E2. destruct (A6 E1 E2) as [own [khs [K1 [K2 _]]]].
  exists own, khs. split; [exact K1|]. intros y Hy. apply K2; [exact Hy|]. left. apply in_map. eapply only_options; eassumption.
Qed.

End AudienceProofs.
