(** Proofs for C91. *)
From Verif Require Import Base PyStr Base64 Env Prog Chain Gpg Mime States Recommendation Account Cmdline Bot Fs Api Steps StepFacts Exec ApiScope Spec Obs PeerSpec PeerFacts RecSpec RecProofs HeaderSpec HeaderProofs OutSpec OutProofs Incoming PeerProofs PeerProofs2 PeerProofs3 PeerProofs4 OutProofs2 Quiet AcctSpec AcctFacts AcctProofs CliSpec CliProofs CliProofs2 TalkSpec TalkProofs LostSpec LostProofs AudienceSpec AudienceProofs ConvSpec.

Section ConvProofs.
Context {E : Env}.

(** ** One computer *)
Lemma meet_step s c a y : WF s -> exists_acct s a -> plain a c = true ->
  (forall m ign nd, c = AIncoming a m ign nd -> sender_of m = y -> exists key pref h, carries m key pref /\ key <> [] /\ imports_as a key h) ->
  let ms := msg_entries (peer_log s a y) in let ms' := msg_entries (peer_log (after s c) a y) in
  ms' = ms \/ exists m ign nd e h, c = AIncoming a m ign nd /\ sender_of m = y /\ ms' = e :: ms /\
    carries m (me_keydata e) (me_pref e) /\ me_keydata e <> [] /\ imports_as a (me_keydata e) h /\ me_kh e = h /\ h <> [].
Proof.
  intros Hw He Hp Hc. cbv zeta. pose proof (exists_isalnum s a Hw He) as Ha.
  destruct (incoming_dec a c) as [[m [ign [nd ->]]]|Hn].
  2:{ destruct (after_msgs c a y s Hw (plain_deletes a c Hp) Ha) as [new [H1 H2]]. destruct new as [|e new]; [left; rewrite H1; reflexivity|].
      exfalso. inversion H2. eapply plain_origin; eauto. }
  destruct (answer_incoming s a m ign nd Hw He) as [-> _].
  destruct (incoming_effect a m ign nd s Hw He) as [e Hl Hr|Hl Hr Hi Hm|d p s1 kh p' ls Hd Hpar Hi Hl1 Hn Hpath HF Hr].
  1,2: left; rewrite (logs_peer _ _ _ _ Hl); reflexivity.
  rewrite (gossip_path_msgs _ _ _ _ _ _ _ Hpath HF a y Ha).
  destruct (step_msg_log s1 a (sender_of m) (msg_id_text m) (Z.min d (clock (a_tick s))) (p_pref p) (p_keydata p) kh y) as [-> _].
  rewrite !(logs_peer s s1) by exact Hl1. destruct (text_eqb_spec y (sender_of m)) as [->|Hx]; [|left; reflexivity].
  destruct (Hc m ign nd eq_refl eq_refl) as [key [pref [h [H1 [H2 H3]]]]].
  pose proof H1 as H1'. apply carries_parse in H1' as [Hv [ex H1']]. rewrite Hpar in H1'. injection H1' as ->. cbn [p_pref p_keydata] in *.
  pose proof (import_run_kh a _ _ _ _ _ key h Hi eq_refl eq_refl H3) as ->. apply import_run_nonempty in Hi.
  destruct (decide_msgs_cases (peer_log s a (sender_of m)) (msg_id_text m) (Z.min d (clock (a_tick s))) (Some pref) (Some key) (Some h))
    as [|p k D1 D2 D3 D4 D5|D1 D2 D3].
  - left. reflexivity.
  - right. injection D1 as <-. injection D2 as <-. exists m, ign, nd. eexists. exists h. split; [reflexivity|]. split; [reflexivity|]. split; [reflexivity|].
    cbn [new_entry me_keydata me_pref me_kh]. auto 8.
  - exfalso. destruct D1; congruence.
Qed.

Lemma carries_delivered o r key pref : delivered o r -> carries o key pref -> carries r key pref.
Proof.
  intros [D1 [D2 [_ D4]]] [C1 [C2 C3]]. unfold carries.
  assert (Hs : sender_of r = sender_of o) by (eapply sender_delivered; [exact D1|reflexivity]).
  rewrite D4, D1, D2, Hs. auto.
Qed.
Lemma delivered_sym o r : delivered o r -> delivered r o.
Proof. intros [D1 [D2 [D3 D4]]]. unfold delivered. auto. Qed.

(** the key that is sent: [c32_added] and [c64_sent], with the key ring *)
Lemma gives_out_key g kh s s' kd : arun (get_public_keydata g kh false) s = (s', Ok kd) -> gives_out s s' kh kd.
Proof.
  unfold get_public_keydata. intros H. apply arun_bind_ok in H as [s1 [[out err] [H1 H2]]]. apply arun_ret_ok in H2 as [-> ->].
  pose proof (gpg_outerr_ok _ _ _ _ _ _ _ _ _ _ H1) as [_ [Ht _]]. cbv beta iota zeta in Ht.
  unfold gpg_outerr in H1. apply arun_bind_ok in H1 as [s2 [r [H1 H2]]]. unfold arun in H1. cbn [perform run astep] in H1.
  unfold full_argv in Ht. set (full := [gp_path g; L "--batch"] ++ homedirflags g ++ _) in *.
  exists full. split; [eexists; split; [exact Ht|left; reflexivity]|].
  split; [exists ([gp_path g; L "--batch"] ++ homedirflags g); unfold full; rewrite <- !app_assoc; reflexivity|].
  destruct (gpg (ring_at (a_rings s) (argv_home full)) full None None) as [r' res] eqn:Eg. injection H1 as <- <-. cbn [snd].
  destruct (Z.eqb (g_ret res) 130); [discriminate|]. destruct (utf8 (g_err res)) as [er|]; [|discriminate].
  destruct (negb (Z.eqb (g_ret res) 0) || _); [discriminate|]. apply arun_ret_ok in H2 as [_ H2]. congruence.
Qed.
(** all candidates, for the examples *)
Definition exported (s s' : ast) : list bytes :=
  map (fun g => g_out (snd (gpg (ring_at (a_rings s) (argv_home (gc_argv g))) (gc_argv g) None None)))
    (filter (fun g => mem_text (L "--export") (gc_argv g)) (firstn (length (a_trace s') - length (a_trace s)) (a_trace s'))).
Lemma gives_out_exported s s' kh key : gives_out s s' kh key -> In key (exported s s').
Proof.
  intros [argv [[l [Hl Hi]] [[pre Hp] <-]]]. unfold exported. apply in_map_iff. exists (GCall (argv_home argv) argv None None).
  split; [reflexivity|]. apply filter_In. split.
  - rewrite Hl, app_length, Nat.add_sub, firstn_app, Nat.sub_diag, firstn_all, firstn_O, app_nil_r. exact Hi.
  - apply mem_text_In. cbn [gc_argv]. rewrite Hp. apply in_or_app. right. right. left. reflexivity.
Qed.
Lemma gives_out_more s s1 s' kh key : gives_out s s1 kh key -> only_gpg s1 s' -> gives_out s s' kh key.
Proof.
  intros [argv [[l [H1 H2]] H3]] [_ [l' Hl]]. exists argv. split; [|exact H3]. exists (l' ++ l). rewrite Hl, H1, app_assoc. split; [reflexivity|].
  apply in_or_app. auto.
Qed.
Lemma sent_key s a m o : reachable s -> answer s (AOutgoing a m) = Ok (OOutgoing o) ->
  hget_all m (L "Autocrypt") = [] -> (length (getaddresses (hget_all m (L "From"))) <= 1)%nat ->
  get_content_type m <> L "multipart/report" -> plain_address (sender_of m) ->
  exists c kh key, own_of s a = Some (c, kh) /\ gives_out s (after s (AOutgoing a m)) kh key /\
    (is_bytes key = true -> key <> [] -> sender_of (out_msg o) = sender_of m /\ carries (out_msg o) key (cf_pref c)).
Proof.
  intros Hr Hans Hn Hone Hct [K3 K4]. pose proof (reachable_WF s Hr) as Hw. pose proof (out_headers s a m o Hr Hans) as [Hh Ht].
  apply answer_outgoing in Hans as [He H]; [|exact Hr]. pose proof (out_ac _ _ _ _ _ Hr He H) as Hac.
  apply outgoing_ok in H as [_ [_ [_ [s1 [m2 [Hr1 [Hg [Hp [Hadd Hway]]]]]]]]]; [|exact Hr|exact He].
  destruct Hadd as [[Ha _]|[_ [v [Ha Hv]]]]; [congruence|]. rewrite Ha, Hn in Hac.
  assert (He1 : exists_acct s1 a) by (apply (same_peer s s1 a [] Hw (reachable_WF s1 Hr1) (proj1 Hg) He)).
  unfold make_ac_header in Hv. apply arun_bind_ok in Hv as [s2 [g [H1 H]]]. apply get_bingpg_ok in H1 as ->.
  apply arun_bind_ok in H as [s2 [kh [H1 H]]]. apply own_keyhandle_ok in H1 as [-> [k [Hk ->]]].
  apply arun_bind_ok in H as [s2 [key [H1 H]]]. pose proof (get_public_keydata_ok _ _ _ _ _ _ H1) as [O1 _]. apply gives_out_key in H1.
  apply arun_bind_ok in H as [s3 [c [H2 H]]]. apply own_config_ok in H2 as [-> Hc]. apply arun_lift_ok in H as [-> Hmk].
  unfold config_of in Hc. rewrite (only_gpg_log _ _ _ O1) in Hc. change (config_of s a = Some c) in Hc.
  exists c, (kg_kh k), key. split; [rewrite own_of_spec by exact Hw; rewrite Hc, Hk; reflexivity|].
  split; [eapply gives_out_more; [exact H1|eapply way_gpg; eauto]|]. intros K1 K2.
  pose proof (Hh (L "From") eq_refl ltac:(discriminate) ltac:(discriminate)) as Hf.
  pose proof (sender_delivered m (out_msg o) (out_msg o) eq_refl Hf) as Hs. split; [exact Hs|].
  split; [destruct Ht as [-> | ->]; [exact Hct|discriminate]|]. split; [rewrite Hf; exact Hone|].
  exists [], v, []. rewrite Hac, Hs. split; [reflexivity|]. split; [|intros w []]. exists [].
  assert (Hpref : cf_pref c = L "nopreference" \/ cf_pref c = L "mutual").
  { pose proof (wf_pref s a c Hw Hc) as Hvp. unfold valid_pref in Hvp. apply mem_text_In in Hvp. destruct Hvp as [<-|[<-|[]]]; auto. }
  destruct (c24 (from_addr m) key (cf_pref c) K1 K2 K3 K4 Hpref) as [v' [V1 V2]]. rewrite Hmk in V1. injection V1 as <-. exact V2.
Qed.

(** the newest entry has a good key *)
Definition good_head (a : text) (way : list msg) (ms : list msg_entry) : Prop :=
  match ms with
  | [] => True
  | e :: _ => me_keydata e <> [] /\ me_pref e = mutual /\ me_kh e <> [] /\ imports_as a (me_keydata e) (me_kh e) /\
      exists o, In o way /\ carries o (me_keydata e) mutual
  end.
Lemma good_head_more a way way' ms : (forall o, In o way -> In o way') -> good_head a way ms -> good_head a way' ms.
Proof. intros Hi. destruct ms as [|e ms]; [auto|]. intros [H1 [H2 [H3 [H4 [o [H5 H6]]]]]]. cbn. eauto 10. Qed.
Lemma good_knows s a x e ms way : WF s -> exists_acct s a -> msg_entries (peer_log s a (norm x)) = e :: ms -> good_head a way (e :: ms) ->
  exists d, knows s a x (me_keydata e) (me_kh e) mutual d.
Proof.
  intros Hw He Hm [H1 [H2 [H3 _]]]. exists (me_date e). eexists. split; [apply peer_of_spec; auto|].
  apply nonempty_true in H1. apply nonempty_true in H3.
  unfold view_of. cbn [pv_keydata pv_keyhandle pv_pref pv_direct pv_ac_timestamp pv_last_seen].
  unfold public_keydata, public_keyhandle, peer_prefer_encrypt, entry_for_encryption, has_direct_key, autocrypt_timestamp, last_seen, latest_msg_entry, latest_ac_entry.
  rewrite Hm. cbn [find]. rewrite H1, H3. cbn. rewrite H2. auto 8.
Qed.

(** ** Both *)
Context (acct adr : bool -> text).
Notation name_of := (name_of adr).

Definition side_ok (w : world) (i : bool) : Prop :=
  reachable (w_at w i) /\ (exists c kh, own_of (w_at w i) (acct i) = Some (c, kh) /\ cf_pref c = mutual) /\
  (forall o, In o (w_way w i) -> sender_of o = name_of (negb i) /\ exists key h, carries o key mutual /\ key <> [] /\ imports_as (acct i) key h) /\
  good_head (acct i) (w_way w i) (msg_entries (peer_log (w_at w i) (acct i) (name_of (negb i)))).

Lemma put_same {A} (f : bool -> A) i x : put f i x i = x.
Proof. unfold put. rewrite Bool.eqb_reflx. reflexivity. Qed.
Lemma put_other {A} (f : bool -> A) i j x : j <> i -> put f i x j = f j.
Proof. unfold put. destruct (Bool.eqb_spec j i); [contradiction|reflexivity]. Qed.
Lemma negb_neq i : negb i <> i. Proof. destruct i; discriminate. Qed.

(** the log of the other: untouched, or a mail of the other was recorded *)
Lemma side_step s i c way : reachable s -> (exists cfg kh, own_of s (acct i) = Some (cfg, kh) /\ cf_pref cfg = mutual) ->
  plain (acct i) c = true -> modifies (acct i) c = false ->
  (forall m ign nd, c = AIncoming (acct i) m ign nd -> sender_of m = name_of (negb i) ->
     exists o key h, In o way /\ delivered o m /\ carries o key mutual /\ key <> [] /\ imports_as (acct i) key h) ->
  good_head (acct i) way (msg_entries (peer_log s (acct i) (name_of (negb i)))) ->
  reachable (after s c) /\ (exists cfg kh, own_of (after s c) (acct i) = Some (cfg, kh) /\ cf_pref cfg = mutual) /\
  good_head (acct i) way (msg_entries (peer_log (after s c) (acct i) (name_of (negb i)))) /\
  (msg_entries (peer_log s (acct i) (name_of (negb i))) <> [] -> msg_entries (peer_log (after s c) (acct i) (name_of (negb i))) <> []).
Proof.
  intros Hr [cfg [kh [Ho Hm]]] Hp Hmod Hc Hg. pose proof (reachable_WF s Hr) as Hw.
  assert (He : exists_acct s (acct i)) by (eapply own_exists; eauto).
  split; [apply reachable_after; exact Hr|]. split; [exists cfg, kh; split; [apply c42_only; auto; apply plain_deletes; exact Hp|exact Hm]|].
  destruct (meet_step s c (acct i) (name_of (negb i)) Hw He Hp) as [->|[m [ign [nd [e [h [-> [H1 [-> [H2 [H3 [H4 [H5 H6]]]]]]]]]]]]].
  - intros m ign nd H1 H2. destruct (Hc m ign nd H1 H2) as [o [key [h [K1 [K2 [K3 [K4 K5]]]]]]]. exists key, mutual, h.
    split; [eapply carries_delivered; eauto|auto].
  - auto.
  - split; [|discriminate]. destruct (Hc m ign nd eq_refl H1) as [o [key [h' [K1 [K2 [K3 [K4 K5]]]]]]].
    pose proof (carries_delivered o m key mutual K2 K3) as K6. destruct (carries_unique m _ _ _ _ H2 K6) as [E1 E2].
    cbn [good_head]. subst h. rewrite E1 in *. rewrite E2. split; [exact H3|]. split; [reflexivity|]. split; [exact H6|]. split; [exact H4|]. eauto.
Qed.

Lemma next_ok w e : (forall i, side_ok w i) -> honest acct adr w e -> forall i, side_ok (next acct w e) i /\
  (msg_entries (peer_log (w_at w i) (acct i) (name_of (negb i))) <> [] ->
   msg_entries (peer_log (w_at (next acct w e) i) (acct i) (name_of (negb i))) <> []).
Proof.
  intros Hs Hh i.
  assert (Hkeep : forall way, (forall o, In o (w_way w i) -> In o way) -> 
    (forall o, In o way -> sender_of o = name_of (negb i) /\ exists key h, carries o key mutual /\ key <> [] /\ imports_as (acct i) key h) ->
    forall s, s = w_at w i -> forall W, w_at W i = s -> w_way W i = way -> side_ok W i).
  { intros way Hi Hall s -> W E1 E2. destruct (Hs i) as [S1 [S2 [S3 S4]]]. unfold side_ok. rewrite E1, E2. repeat (split; [assumption|]).
    eapply good_head_more; eauto. }
  destruct e as [j m|j r ign nd|j c]; cbn [next honest] in *.
  - destruct (Hs j) as [R1 [[cfg [kh [Ho Hm]]] [R3 R4]]].
    destruct Hh as [L1 [L2 [L3 [L4 [L5 L6]]]]].
    assert (Hway : forall o, answer (w_at w j) (AOutgoing (acct j) m) = Ok (OOutgoing o) ->
      sender_of (out_msg o) = name_of j /\ exists key h, carries (out_msg o) key mutual /\ key <> [] /\ imports_as (acct (negb j)) key h).
    { intros o Ha. destruct (sent_key _ _ _ _ R1 Ha L2 L3 L4 L5) as [c0 [kh0 [key [K1 [K2 K3]]]]]. rewrite Ho in K1. injection K1 as <- <-.
      destruct (L6 kh key K2) as [B1 [B2 [h B3]]]. destruct (K3 B1 B2) as [J1 J3].
      rewrite Hm in J3. split; [congruence|]. eauto. }
    destruct (Bool.bool_dec i j) as [->|Hij].
    + (* the sender *)
      destruct (side_step (w_at w j) j (AOutgoing (acct j) m) (w_way w j) R1 (ex_intro _ cfg (ex_intro _ kh (conj Ho Hm))) eq_refl eq_refl) as [S1 [S2 [S3 S4]]];
        [discriminate|exact R4|]. 
      assert (Hwj : forall x, put (w_way w) (negb j) x j = w_way w j) by (intros x; apply put_other; intros H; symmetry in H; exact (negb_neq j H)).
      unfold side_ok. cbn [w_at w_way]. rewrite put_same.
      assert (Hw : match answer (w_at w j) (AOutgoing (acct j) m) with Ok (OOutgoing o) => put (w_way w) (negb j) (out_msg o :: w_way w (negb j)) | _ => w_way w end j = w_way w j).
      { destruct (answer _ _) as [[]|]; auto. }
      rewrite Hw. auto 8.
    + (* the other *)
      assert (i = negb j) as -> by (destruct i, j; cbn; congruence || (exfalso; apply Hij; reflexivity)). cbn [w_at]. rewrite put_other by apply negb_neq. split; [|auto].
      eapply Hkeep; [| |reflexivity|cbn [w_at]; apply put_other, negb_neq|reflexivity]; cbn [w_way].
      * intros o Hi. destruct (answer _ _) as [[]|]; try exact Hi. rewrite put_same. right. exact Hi.
      * destruct (Hs (negb j)) as [_ [_ [Hall _]]]. intros o. rewrite Bool.negb_involutive in *.
        destruct (answer _ _) as [[]|] eqn:Ea; try apply Hall. rewrite put_same. intros [<-|Hi]; [apply Hway; reflexivity|apply Hall; exact Hi].
  - destruct (Bool.bool_dec i j) as [->|Hij].
    + destruct (Hs j) as [R1 [R2 [R3 R4]]]. unfold side_ok. cbn [w_at w_way]. rewrite put_same.
      destruct (side_step (w_at w j) j (AIncoming (acct j) r ign nd) (w_way w j) R1 R2 eq_refl eq_refl) as [S1 [S2 [S3 S4]]]; [|exact R4|auto 8].
      intros m i1 n1 [= <- <- <-] _. destruct Hh as [o [H1 H2]]. destruct (R3 o H1) as [_ [key [h H3]]]. exists o, key, h. tauto.
    + cbn [w_at]. rewrite put_other by auto. split; [|auto]. eapply Hkeep; [| |reflexivity|cbn [w_at]; apply put_other; exact Hij|reflexivity]; cbn [w_way]; [auto|apply (Hs i)].
  - destruct Hh as [P1 [P2 P3]]. destruct (Bool.bool_dec i j) as [->|Hij].
    + destruct (Hs j) as [R1 [R2 [R3 R4]]]. unfold side_ok. cbn [w_at w_way]. rewrite put_same.
      destruct (side_step (w_at w j) j c (w_way w j) R1 R2 P1 P2) as [S1 [S2 [S3 S4]]]; [|exact R4|auto 8].
      intros m i1 n1 Hc Hx. destruct (P3 m i1 n1 Hc Hx).
    + cbn [w_at]. rewrite put_other by auto. split; [|auto]. eapply Hkeep; [| |reflexivity|cbn [w_at]; apply put_other; exact Hij|reflexivity]; cbn [w_way]; [auto|apply (Hs i)].
Qed.

Lemma goes_ok es : forall w, (forall i, side_ok w i) -> honestly acct adr w es -> forall i, side_ok (goes acct w es) i /\
  (msg_entries (peer_log (w_at w i) (acct i) (name_of (negb i))) <> [] ->
   msg_entries (peer_log (w_at (goes acct w es) i) (acct i) (name_of (negb i))) <> []).
Proof.
  induction es as [|e es IH]; intros w Hs Hh i; [auto|]. destruct Hh as [H1 H2].
  destruct (IH (next acct w e) (fun j => proj1 (next_ok w e Hs H1 j)) H2 i) as [I1 I2]. split; [exact I1|].
  intros Hn. apply I2. apply (next_ok w e Hs H1 i). exact Hn.
Qed.
Lemma honestly_app es1 es2 : forall w, honestly acct adr w (es1 ++ es2) -> honestly acct adr w es1 /\ honestly acct adr (goes acct w es1) es2.
Proof. induction es1 as [|e es1 IH]; intros w H; [split; [exact I|exact H]|]. destruct H as [H1 H2]. apply IH in H2 as [H2 H3]. split; [split; assumption|exact H3]. Qed.
Lemma goes_app w es1 es2 : goes acct w (es1 ++ es2) = goes acct (goes acct w es1) es2.
Proof. apply fold_left_app. Qed.

Lemma fresh_log l : peer_ok l -> latest_ac_entry l = None -> last_seen l = 0%Z -> msg_entries l = [].
Proof.
  induction 1 as [|t id d p kd kh l H IH H1 H2 H3|t id d l H IH H1 H2|t id d kd kh l H IH H1 H2]; intros Hac Hseen.
  - reflexivity.
  - unfold latest_ac_entry in Hac. cbn [msg_entries bl_entry find me_keydata] in Hac. rewrite H2 in Hac. discriminate.
  - unfold last_seen, latest_msg_entry in Hseen. cbn in Hseen. subst d. pose proof (peer_ok_seen l H). pose proof (peer_ok_nonneg l H). lia.
  - apply IH; assumption.
Qed.
Lemma strangers_ok w : strangers acct adr w -> forall i, side_ok w i.
Proof.
  intros H i. destruct (H i) as [H1 [H2 [[v [V1 [V2 V3]]] H4]]]. pose proof (reachable_WF _ H1) as Hw.
  apply peer_of_some in V1 as [_ ->]; [|exact Hw]. unfold side_ok. rewrite H4. split; [exact H1|]. split; [exact H2|]. split; [intros o []|].
  rewrite fresh_log; [exact I|apply (wf_peer _ Hw)|exact V2|exact V3].
Qed.
Lemma met_acquainted w i : side_ok w i -> msg_entries (peer_log (w_at w i) (acct i) (name_of (negb i))) <> [] ->
  exists key kh, acquainted acct adr w i key kh.
Proof.
  intros [H1 [[c [k [H2 _]]] [_ H4]]] Hn. pose proof (reachable_WF _ H1) as Hw.
  destruct (msg_entries (peer_log (w_at w i) (acct i) (name_of (negb i)))) as [|e ms] eqn:Em; [congruence|].
  pose proof H4 as [G1 [G2 [G3 [G4 G5]]]]. exists (me_keydata e), (me_kh e). split; [|auto].
  eapply good_knows; eauto. eapply own_exists; eauto.
Qed.
Lemma acquainted_met w i key kh : side_ok w i -> acquainted acct adr w i key kh -> msg_entries (peer_log (w_at w i) (acct i) (name_of (negb i))) <> [].
Proof.
  intros [H1 _] [[d [v [V1 [_ [_ [_ [V5 _]]]]]]] _] Hm. pose proof (reachable_WF _ H1) as Hw. apply peer_of_some in V1 as [_ ->]; [|exact Hw].
  cbn [view_of pv_direct] in V5. unfold has_direct_key, latest_ac_entry, ConvSpec.name_of in *. rewrite Hm in V5. discriminate.
Qed.

Theorem c91_stays : forall w es1 es2 i key kh, strangers acct adr w -> honestly acct adr w (es1 ++ es2) ->
  acquainted acct adr (goes acct w es1) i key kh -> exists key' kh', acquainted acct adr (goes acct w (es1 ++ es2)) i key' kh'.
Proof.
  intros w es1 es2 i key kh Hs Hh Ha. apply honestly_app in Hh as [Hh1 Hh2]. pose proof (goes_ok es1 w (strangers_ok w Hs) Hh1) as Hok1.
  pose proof (goes_ok es2 _ (fun j => proj1 (Hok1 j)) Hh2 i) as [Hok2 Hm]. rewrite goes_app. apply met_acquainted; [exact Hok2|].
  apply Hm. eapply acquainted_met; [apply Hok1|exact Ha].
Qed.

Theorem c91_first : forall w es i r ign nd x d, strangers acct adr w -> honestly acct adr w (es ++ [Gets i r ign nd]) ->
  let s := w_at (goes acct w es) i in
  answer s (AIncoming (acct i) r ign nd) = Ok (OIncoming (Some x)) -> dated r d -> (0 <= Z.min d (clock (a_tick s)))%Z ->
  exists key kh, acquainted acct adr (goes acct w (es ++ [Gets i r ign nd])) i key kh.
Proof.
  intros w es i r ign nd x d Hs Hh. cbv zeta. intros Ha Hd H0. apply honestly_app in Hh as [Hh1 Hh2].
  pose proof (goes_ok es w (strangers_ok w Hs) Hh1) as Hok1.
  pose proof (goes_ok _ _ (fun j => proj1 (Hok1 j)) Hh2 i) as [Hok2 _]. rewrite goes_app. apply met_acquainted; [exact Hok2|].
  cbn [goes fold_left next w_at]. rewrite put_same. destruct (Hok1 i) as [[R1 [[c [k [R2 _]]] [R3 R4]]] _]. set (s := w_at (goes acct w es) i) in *.
  destruct Hh2 as [[o [O1 O2]] _]. destruct (R3 o O1) as [S1 [key [h [K1 [K2 K3]]]]].
  pose proof (reachable_WF s R1) as Hw. assert (He : exists_acct s (acct i)) by (eapply own_exists; eauto).
  assert (Hx : sender_of r = name_of (negb i)).
  { rewrite <- S1. destruct O2 as [D1 _]. eapply sender_delivered; [exact D1|reflexivity]. }
  destruct (c08_step s (AIncoming (acct i) r ign nd) (acct i) (name_of (negb i)) Hw He eq_refl) as [_ [_ H3]].
  destruct (H3 (Offer (Z.min d (clock (a_tick s))) mutual key (msg_id_text r)) x) as [_ H4]; [|exact Ha|].
  - exists r, ign, nd, d. cbn [of_date of_id of_key of_pref]. pose proof (carries_delivered o r key mutual O2 K1). auto 10.
  - intros Hm. apply H4. rewrite Hm. reflexivity.
Qed.

Theorem c91_letters : forall w es i key kh m o y, strangers acct adr w -> honestly acct adr w es ->
  let w' := goes acct w es in let s := w_at w' i in acquainted acct adr w' i key kh ->
  answer s (AOutgoing (acct i) m) = Ok (OOutgoing o) -> targets m = [y] -> norm y = norm (adr (negb i)) -> norm y <> from_addr m ->
  control m <> Some (L "no") ->
  is_encrypted (out_msg o) = Ok true /\
  (is_encrypted m = Ok false -> exists own khs, encrypted_for s (after s (AOutgoing (acct i) m)) (acct i) m o own khs /\ In kh khs).
Proof.
  intros w es i key kh m o y Hs Hh. cbv zeta. intros Ha H Ht Hy Hne Hc. pose proof (goes_ok es w (strangers_ok w Hs) Hh i) as [[R1 [[c [k [R2 R3]]] _]] _].
  set (s := w_at (goes acct w es) i) in *. destruct Ha as [[d Hk] [Hkh _]]. rewrite <- Hy in Hk.
  destruct (c64_recommended s (acct i) y key kh mutual d c k R1 R2 Hk Hkh) as [Hrec _]. rewrite R3, text_eqb_refl in Hrec. cbn [andb] in Hrec.
  assert (Hot : others m = [y]).
  { unfold others. rewrite Ht. cbn [filter]. apply text_eqb_neq in Hne. rewrite Hne. reflexivity. }
  destruct (c29 s (acct i) m o R1 H) as [E1 _]; [right; split; [exact Hc|rewrite Hot; exact Hrec]|]. split; [exact E1|].
  intros Hm. destruct (c64_encrypted s (acct i) y key kh mutual d m o R1 Hk Hkh H) as [c0 [own [khs [data [enc [K1 [K2 [K3 K4]]]]]]]]; auto.
  { rewrite Ht. left. reflexivity. }
  exists own, khs. split; [|exact K4]. split; [exact Hm|]. split; [exact E1|]. split; [eauto|]. eauto.
Qed.

End ConvProofs.
