(** Outgoing mail: the properties C29 to C35. *)
From Verif Require Import Base PyStr Base64 Env Prog Chain Gpg Mime States Recommendation Account Cmdline Bot Fs Api Steps StepFacts Exec ApiScope Spec Obs PeerSpec PeerFacts RecSpec RecProofs HeaderSpec HeaderProofs OutSpec OutProofs.

Section Out2.
Context {E : Env}.

Lemma answer_outgoing s a m o : reachable s -> answer s (AOutgoing a m) = Ok (OOutgoing o) ->
  exists_acct s a /\ arun (process_outgoing a m) s = (after s (AOutgoing a m), Ok o).
Proof.
  intros Hr. pose proof (reachable_WF s Hr) as Hw. unfold answer, after. cbn [exec].
  destruct (exists_acct_dec s a) as [He|He].
  - rewrite arun_with_account by auto. rewrite arun_bind. destruct (arun (process_outgoing a m) s) as [s1 [o1|e]]; cbn; [|discriminate].
    intros [= <-]. auto.
  - rewrite arun_with_account_none by auto. discriminate.
Qed.
Lemma answer_encrypt s a m to em khs : reachable s -> answer s (AEncrypt a m to) = Ok (OEncrypted em khs) ->
  exists_acct s a /\ arun (encrypt_mime a m to) s = (after s (AEncrypt a m to), Ok (em, khs)).
Proof.
  intros Hr. pose proof (reachable_WF s Hr) as Hw. unfold answer, after. cbn [exec].
  destruct (exists_acct_dec s a) as [He|He].
  - rewrite arun_with_account by auto. rewrite arun_bind. destruct (arun (encrypt_mime a m to) s) as [s1 [[e1 k1]|e]]; cbn; [|discriminate].
    intros [= <- <-]. auto.
  - rewrite arun_with_account_none by auto. discriminate.
Qed.

Lemma pgp_encrypted h enc : is_encrypted (Msg ((L "Content-Type", encrypted_ctype) :: h) (pgp_body enc)) = Ok true.
Proof. reflexivity. Qed.
Lemma pgp_encrypted' m h enc : m_headers m = (L "Content-Type", encrypted_ctype) :: h -> m_body m = pgp_body enc -> is_encrypted m = Ok true.
Proof. destruct m as [hs b]. cbn [m_headers m_body]. intros -> ->. apply pgp_encrypted. Qed.

Lemma filter_without f n h : (forall k v, lower k = lower n -> f (k, v) = false) -> filter f (without n h) = filter f h.
Proof.
  intros H. unfold without. rewrite filter_filter. apply filter_ext. intros [k v]. cbn [fst].
  destruct (text_eqb_spec (lower k) (lower n)) as [He|He]; cbn [negb andb]; [|reflexivity]. symmetry. apply H. exact He.
Qed.
Lemma prepared_inner m added m2 : prepared m added m2 -> inner_headers m2 = inner_headers m.
Proof.
  intros [_ Hh]. unfold inner_headers. rewrite Hh, filter_app, filter_without.
  - destruct added; cbn; apply app_nil_r.
  - intros k v Hk. unfold named. cbn [fst]. rewrite Hk. reflexivity.
Qed.
Lemma without_filter f n h : without n (filter f h) = filter f (without n h).
Proof. unfold without. rewrite !filter_filter. apply filter_ext. intros x. apply andb_comm. Qed.
Lemma prepared_outer m added m2 : prepared m added m2 ->
  outer_headers m2 = without (L "ENCRYPT") (outer_headers m) ++ match added with Some v => [(L "Autocrypt", v)] | None => [] end.
Proof.
  intros [_ Hh]. unfold outer_headers. rewrite Hh, filter_app, without_filter. f_equal. destruct added; reflexivity.
Qed.

(** an encrypted result *)
Definition sealed (s s' : ast) (a : text) (m : msg) (o : outgoing) : Prop :=
  exists c own khs gs clear data enc, own_of s a = Some (c, own) /\
    Forall2 (fun x => key_in_use s a (norm x)) (everyone m) khs /\
    Forall2 (fun x => gossip_about s a (norm x)) (everyone m) gs /\
    m_body clear = m_body m /\
    m_headers clear = inner_headers m ++ map (fun v => (L "Autocrypt-Gossip", v)) (concat gs) /\
    flatten clear = Ok data /\ gpg_encrypted s s' khs own data enc /\
    m_body (out_msg o) = pgp_body enc /\
    m_headers (out_msg o) = (L "Content-Type", encrypted_ctype) :: without (L "ENCRYPT") (outer_headers m)
       ++ match out_added o with Some v => [(L "Autocrypt", v)] | None => [] end.

Lemma Forall2_mono {A B} (P Q : A -> B -> Prop) l k : (forall x y, P x y -> Q x y) -> Forall2 P l k -> Forall2 Q l k.
Proof. intros H. induction 1; constructor; auto. Qed.

Lemma seal s s' a m o s1 m2 khs : WF s -> exists_acct s a -> reachable s1 -> only_gpg s s1 -> prepared m (out_added o) m2 ->
  arun (encrypt_mime a m2 (everyone m)) s1 = (s', Ok (out_msg o, khs)) -> sealed s s' a m o.
Proof.
  intros Hw He Hr1 Hg Hp H. pose proof (reachable_WF s1 Hr1) as Hw1.
  destruct (exists_own s a Hw He) as [c [own Ho]].
  assert (Hs : forall y, peer_of s1 a y = peer_of s a y /\ own_of s1 a = own_of s a).
  { intros y. destruct (same_peer s s1 a y Hw Hw1 (proj1 Hg) He) as [_ H1]. exact H1. }
  destruct (encrypt_mime_ok s1 s' a m2 (everyone m) (out_msg o) khs own c Hw1) as [G [K [gs [clear [data [enc [I1 [I2 [I3 [I4 [I5 [I6 I7]]]]]]]]]]]]; [|exact H|].
  { rewrite (proj2 (Hs [])). exact Ho. }
  exists c, own, khs, gs, clear, data, enc. split; [exact Ho|].
  split. { eapply Forall2_mono; [|exact K]. intros x kh [v [Hv Hk]]. exists v. rewrite (proj1 (Hs _)) in Hv. rewrite (proj2 (Hs [])) in Hk. auto. }
  split. { eapply Forall2_mono; [|exact I1]. intros x g [v [Hv Hk]]. exists v. rewrite (proj1 (Hs _)) in Hv. auto. }
  split; [rewrite I2; apply Hp|]. split; [rewrite I3, (prepared_inner m _ m2 Hp); reflexivity|]. split; [exact I4|].
  split. { destruct I5 as [home [argv [r [R1 [R2 R3]]]]]. exists home, argv, r. split; [|auto].
    eapply ran_here; [exact Hg|exact R1|apply only_gpg_refl]. }
  split; [exact I6|]. rewrite I7, (prepared_outer m _ m2 Hp). reflexivity.
Qed.

Lemma recommended_fun s a xs b r q : recommended s a xs b r -> recommended s a xs b q -> r = q.
Proof. unfold recommended. congruence. Qed.

(** ** C29 *)
Theorem c29 : forall s a m o, reachable s -> answer s (AOutgoing a m) = Ok (OOutgoing o) ->
  control m = Some (L "yes") \/ (control m <> Some (L "no") /\ recommended s a (others m) false (L "encrypt")) ->
  is_encrypted (out_msg o) = Ok true /\
  ((is_encrypted m = Ok true /\ m_body (out_msg o) = m_body m) \/
   exists khs own clear data enc, m_body (out_msg o) = pgp_body enc /\
     m_body clear = m_body m /\ flatten clear = Ok data /\
     gpg_encrypted s (after s (AOutgoing a m)) khs own data enc).
Proof.
  intros s a m o Hr H Hc. pose proof (reachable_WF s Hr) as Hw. apply answer_outgoing in H as [He H]; [|exact Hr].
  apply outgoing_ok in H as [_ [_ [_ [s1 [m2 [Hr1 [Hg [Hp [_ Hway]]]]]]]]]; [|exact Hr|exact He].
  destruct Hway as [[H1 [H2 H3]]|[H1 [f [r [H2 [H3 [[H4 [H5 H6]]|[H4 [H5 [khs H6]]]]]]]]]].
  - rewrite H2, (prepared_encrypted m _ m2 Hp). split; [exact H1|]. left. split; [exact H1|apply Hp].
  - exfalso. destruct Hc as [Hc|[Hc1 Hc2]].
    + destruct H6 as [H6|[_ H6]]; [rewrite Hc in H6; discriminate|congruence].
    + destruct H6 as [H6|[H6 _]]; [congruence|]. apply H6. eapply recommended_fun; eauto.
  - apply seal with (1 := Hw) in H6; auto. destruct H6 as [c [own [khs' [gs [clear [data [enc [O1 [O2 [O3 [O4 [O5 [O6 [O7 [O8 O9]]]]]]]]]]]]]]].
    split; [eapply pgp_encrypted'; eauto|]. right. exists khs', own, clear, data, enc. auto.
Qed.

(** ** C30 *)
Theorem c30 : forall s a m o, reachable s -> answer s (AOutgoing a m) = Ok (OOutgoing o) ->
  control m = Some (L "no") \/
  (control m <> Some (L "yes") /\ exists r, recommended s a (others m) false r /\ r <> L "encrypt") ->
  prepared m (out_added o) (out_msg o) /\
  forall g, ran s (after s (AOutgoing a m)) g -> gc_in g = None.
Proof.
  intros s a m o Hr H Hc. pose proof (reachable_WF s Hr) as Hw. apply answer_outgoing in H as [He H]; [|exact Hr].
  apply outgoing_ok in H as [_ [_ [_ [s1 [m2 [Hr1 [Hg [Hp [Hadd Hway]]]]]]]]]; [|exact Hr|exact He].
  assert (Hs : out_msg o = m2 /\ after s (AOutgoing a m) = s1).
  { destruct Hway as [[H1 [H2 H3]]|[H1 [f [r [H2 [H3 [[H4 [H5 H6]]|[H4 [H5 [khs H6]]]]]]]]]]; auto.
    exfalso. destruct Hc as [Hc|[Hc [q [Hq Hne]]]]; [congruence|].
    pose proof (recommended_fun _ _ _ _ _ _ H3 Hq). destruct H5 as [H5|[_ H5]]; congruence. }
  destruct Hs as [-> ->]. split; [exact Hp|].
  intros g [l [Hl Hi]]. destruct Hadd as [[_ [_ ->]]|[_ [v [_ Hv]]]].
  - assert (Hn : l = []) by (apply (app_inv_tail (a_trace s)); symmetry; exact Hl). rewrite Hn in Hi. destruct Hi.
  - apply make_ac_header_ok in Hv as [_ [[g0 [Ht Hg0]] _]]. rewrite Ht in Hl. apply app_inv_tail in Hl. rewrite <- Hl in Hi.
    destruct Hi as [<-|[]]. exact Hg0.
Qed.

Theorem c30_returns : forall s a m f b, reachable s -> has_account s a ->
  hget_all m (L "From") = [f] -> hget_all m (L "Autocrypt") <> [] -> is_encrypted m = Ok b ->
  control m = Some (L "no") \/
  ((control m = None \/ control m = Some (L "opportunistic")) /\ exists r, recommended s a (others m) false r /\ r <> L "encrypt") ->
  exists o, answer s (AOutgoing a m) = Ok (OOutgoing o).
Proof.
  intros s a m f b Hr Ha Hf Hac Hb Hc. pose proof (reachable_WF s Hr) as Hw.
  apply has_account_exists in Ha as He; [|exact Hw]. destruct (exists_own s a Hw He) as [c [own Ho]].
  destruct (wf_config s a c own Hw Ho) as [Hcf _].
  assert (Hsome : exists o, snd (arun (process_outgoing a m) s) = Ok o).
  { unfold process_outgoing.
    set (p1 := match hget m (L "ENCRYPT") with Some _ => _ | None => _ end).
    assert (Hp1 : arun p1 s = (s, Ok (control m, hdel m (L "ENCRYPT")))).
    { unfold p1, control in *. destruct (hget m (L "ENCRYPT")) as [h|] eqn:Eh.
      - cbn [option_map] in *. assert (Hh : mem_text (strip h) [L "opportunistic"; L "yes"; L "no"] = true).
        { apply mem_text_In. destruct Hc as [[= ->]|[[[=]|[= ->]] _]]; cbn; auto. }
        rewrite Hh. reflexivity.
      - cbn [option_map]. unfold arun. cbn [run]. do 3 f_equal.
        unfold hdel. rewrite hget_hd in Eh. destruct m as [hs bd]. cbn [m_headers m_body]. f_equal.
        unfold hget_all in Eh. cbn [m_headers] in Eh. clear - Eh.
        induction hs as [|[k v] hs IH]; [reflexivity|]. cbn [filter fst] in *. destruct (text_eqb (lower k) (lower (L "ENCRYPT"))); [discriminate|].
        cbn [negb]. f_equal. apply IH. exact Eh. }
    rewrite arun_bind, Hp1. cbv zeta.
    assert (Hin : hin (hdel m (L "ENCRYPT")) (L "Autocrypt") = true).
    { rewrite hin_all, hget_all_hdel by discriminate. destruct (hget_all m (L "Autocrypt")); [congruence|reflexivity]. }
    rewrite Hin. assert (Hprep : prepared m None (hdel m (L "ENCRYPT"))) by (split; [reflexivity|symmetry; apply app_nil_r]).
    rewrite arun_bind. change (arun (Ret (None, hdel m (L "ENCRYPT"))) s) with (s, Ok (@None text, hdel m (L "ENCRYPT"))).
    cbv iota. rewrite (prepared_encrypted m None _ Hprep), Hb. rewrite arun_bind.
    change (arun (lift (Ok b)) s) with (s, Ok b). cbv iota.
    destruct b; [eexists; reflexivity|].
    rewrite (prepared_hget_all m None _ (L "From") Hprep) by discriminate. rewrite Hf.
    assert (Hff : parse_email_addr (Some f) = from_addr m) by (unfold from_addr; rewrite hget_hd, Hf; reflexivity).
    assert (Ht : get_target_emailadr (hdel m (L "ENCRYPT")) = targets m).
    { unfold get_target_emailadr, get_target_fulladr, targets. rewrite !(prepared_hget_all m None _ _ Hprep) by discriminate. reflexivity. }
    rewrite Hff, Ht. rewrite !arun_bind.
    destruct (recommend_run s a c (map Some (targets m)) false (Some (from_addr m)) Hw Hcf) as [r [R1 R2]].
    rewrite R1. rewrite (asked_others m f Hf) in R2.
    destruct (recommended_run s a c own (others m) false Hr Ho) as [_ [r' [Q1 Q2]]].
    pose proof (overall_fun _ _ _ _ _ _ _ R2 Q2) as <-.
    destruct Hc as [Hc|[Hc [q [Hq Hne]]]].
    - rewrite Hc. eexists. reflexivity.
    - pose proof (recommended_fun _ _ _ _ _ _ Q1 Hq) as <-.
      assert (Hn : otext_eqb (Some r) (Some (L "encrypt")) = false) by (apply otext_eqb_false; congruence).
      rewrite Hn. destruct Hc as [Hc|Hc]; rewrite Hc; cbn [otext_eqb]; rewrite ?andb_false_r; eexists; reflexivity. }
  destruct Hsome as [o Hs]. exists o. unfold answer. cbn [exec]. rewrite arun_with_account by auto. rewrite arun_bind.
  destruct (arun (process_outgoing a m) s) as [s1 r]. cbn [snd] in Hs. subst r. reflexivity.
Qed.

(** ** C31 *)
Lemma without_no n h k v : In (k, v) (without n h) -> lower k <> lower n.
Proof.
  intros H. apply filter_In in H as [_ H]. cbn [fst] in H. apply negb_true_iff in H. intros He. rewrite He, text_eqb_refl in H. discriminate.
Qed.
Lemma prepared_no_control m added m2 : prepared m added m2 -> ~ has_header m2 (L "ENCRYPT").
Proof.
  intros [_ Hh] [k [v [Hi Hl]]]. rewrite Hh in Hi. apply in_app_or in Hi as [Hi|Hi].
  - apply without_no in Hi. congruence.
  - destruct added as [w|]; [|destruct Hi]. destruct Hi as [[= <- <-]|[]]. discriminate Hl.
Qed.
Lemma c31_run s s' a m o : reachable s -> exists_acct s a -> arun (process_outgoing a m) s = (s', Ok o) -> ~ has_header (out_msg o) (L "ENCRYPT").
Proof.
  intros Hr He H. pose proof (reachable_WF s Hr) as Hw.
  apply outgoing_ok in H as [_ [_ [_ [s1 [m2 [Hr1 [Hg [Hp [_ Hway]]]]]]]]]; [|exact Hr|exact He].
  pose proof (prepared_no_control m _ m2 Hp) as Hn.
  destruct Hway as [[H1 [H2 H3]]|[H1 [f [r [H2 [H3 [[H4 [H5 H6]]|[H4 [H5 [khs H6]]]]]]]]]]; try (congruence).
  apply seal with (1 := Hw) in H6; auto. destruct H6 as [c [own [khs' [gs [clear [data [enc [O1 [O2 [O3 [O4 [O5 [O6 [O7 [O8 O9]]]]]]]]]]]]]]].
  intros [k [v [Hi Hl]]]. rewrite O9 in Hi. destruct Hi as [[= <- <-]|Hi]; [discriminate Hl|].
  apply in_app_or in Hi as [Hi|Hi].
  - apply without_no in Hi. congruence.
  - destruct (out_added o) as [w|]; [|destruct Hi]. destruct Hi as [[= <- <-]|[]]. discriminate Hl.
Qed.
Theorem c31 : forall s a m o, reachable s -> answer s (AOutgoing a m) = Ok (OOutgoing o) -> ~ has_header (out_msg o) (L "ENCRYPT").
Proof. intros s a m o Hr H. apply answer_outgoing in H as [He H]; [|exact Hr]. eapply c31_run; eauto. Qed.

Lemma account_loop_ok names adr s s' a : WF s -> arun (account_loop names adr) s = (s', Ok (Some a)) -> s' = s /\ exists_acct s a.
Proof.
  intros Hw. induction names as [|n names IH]; cbn [account_loop]; intros H; [discriminate|].
  apply arun_bind_ok in H as [s1 [b [H1 H]]]. apply get_account_ok in H1 as [-> [-> He]]; [|exact Hw].
  apply arun_bind_ok in H as [s1 [c [H1 H]]]. apply own_config_ok in H1 as [-> _].
  apply arun_bind_ok in H as [s1 [b [H1 H]]]. apply arun_lift_ok in H1 as [-> _].
  destruct b; [apply arun_ret_ok in H as [-> [= ->]]; auto | apply IH; exact H].
Qed.
Lemma from_emailadr_ok adr s s' a : WF s -> arun (get_account_from_emailadr adr false) s = (s', Ok (Some a)) -> s' = s /\ exists_acct s a.
Proof.
  intros Hw H. unfold get_account_from_emailadr in H. apply arun_bind_ok in H as [s1 [names [H1 H]]].
  assert (Hs : s1 = s).
  { unfold list_account_names, get_account_names in H1. apply arun_bind_ok in H1 as [s2 [ks [H1 H2]]].
    unfold arun in H1. cbn in H1. injection H1 as <- <-. apply arun_ret_ok in H2 as [-> _]. reflexivity. }
  subst s1. clear H1. apply arun_bind_ok in H as [s1 [r [H1 H]]]. destruct r as [b|]; [|discriminate].
  apply arun_ret_ok in H as [-> [= ->]]. eapply account_loop_ok; eauto.
Qed.
Theorem c31_cli : forall s m m', reachable s -> hget m (L "Resent-From") = None \/ hget m (L "Resent-From") = Some [] ->
  answer s (ACliOutgoing m) = Ok (OMsg m') -> ~ has_header m' (L "ENCRYPT").
Proof.
  intros s m m' Hr Hres H. pose proof (reachable_WF s Hr) as Hw. unfold answer in H. cbn [exec] in H.
  destruct (arun (m'' <- cli_process_outgoing m ;; Ret (OMsg m'')) s) as [s' r] eqn:Er. cbn [snd] in H. subst r.
  apply arun_bind_ok in Er as [s1 [m1 [H1 H2]]]. apply arun_ret_ok in H2 as [-> [= ->]].
  unfold cli_process_outgoing in H1. cbv zeta in H1.
  destruct Hres as [Hres|Hres]; rewrite Hres in H1; cbn [nonempty] in H1;
  apply arun_bind_ok in H1 as [s2 [[b|] [H1 H]]]; try discriminate;
  (apply from_emailadr_ok in H1 as [-> He]; [|exact Hw]);
  apply arun_bind_ok in H as [s2 [o [H2 H]]]; apply arun_ret_ok in H as [-> ->]; eapply c31_run; eauto.
Qed.

(** ** C32 *)
Lemma hget_all_headers m h n : m_headers m = h -> hget_all m n = map snd (filter (fun kv => text_eqb (lower (fst kv)) (lower n)) h).
Proof. intros <-. reflexivity. Qed.
Lemma prepared_ac m added m2 : prepared m added m2 ->
  hget_all m2 (L "Autocrypt") = hget_all m (L "Autocrypt") ++ match added with Some v => [v] | None => [] end.
Proof.
  intros [_ Hh]. unfold hget_all. rewrite Hh, filter_app, map_app.
  rewrite filter_without; [destruct added; reflexivity|]. intros k v Hk. cbn [fst]. rewrite Hk. reflexivity.
Qed.
Lemma outer_ac m : map snd (filter (fun kv => text_eqb (lower (fst kv)) (lower (L "Autocrypt"))) (without (L "ENCRYPT") (outer_headers m))) = hget_all m (L "Autocrypt").
Proof.
  unfold hget_all. rewrite filter_without; [|intros k v Hk; cbn [fst]; rewrite Hk; reflexivity].
  f_equal. unfold outer_headers. rewrite filter_filter. apply filter_ext. intros [k v]. cbn [fst].
  destruct (text_eqb_spec (lower k) (lower (L "Autocrypt"))) as [He|He]; [|apply andb_false_r].
  rewrite andb_true_r. unfold named. cbn [fst]. rewrite He. reflexivity.
Qed.
Lemma out_ac s s' a m o : reachable s -> exists_acct s a -> arun (process_outgoing a m) s = (s', Ok o) ->
  hget_all (out_msg o) (L "Autocrypt") = hget_all m (L "Autocrypt") ++ match out_added o with Some v => [v] | None => [] end.
Proof.
  intros Hr He H. pose proof (reachable_WF s Hr) as Hw.
  apply outgoing_ok in H as [_ [_ [_ [s1 [m2 [Hr1 [Hg [Hp [_ Hway]]]]]]]]]; [|exact Hr|exact He].
  destruct Hway as [[H1 [H2 H3]]|[H1 [f [r [H2 [H3 [[H4 [H5 H6]]|[H4 [H5 [khs H6]]]]]]]]]].
  - rewrite H2. apply prepared_ac, Hp.
  - rewrite H4. apply prepared_ac, Hp.
  - apply seal with (1 := Hw) in H6; auto. destruct H6 as [c [own [khs' [gs [clear [data [enc [O1 [O2 [O3 [O4 [O5 [O6 [O7 [O8 O9]]]]]]]]]]]]]]].
    rewrite (hget_all_headers _ _ (L "Autocrypt") O9).
    change ((L "Content-Type", encrypted_ctype) :: without (L "ENCRYPT") (outer_headers m) ++ match out_added o with Some v => [(L "Autocrypt", v)] | None => [] end)
      with ([(L "Content-Type", encrypted_ctype)] ++ without (L "ENCRYPT") (outer_headers m) ++ match out_added o with Some v => [(L "Autocrypt", v)] | None => [] end).
    rewrite !filter_app, !map_app, outer_ac. destruct (out_added o); reflexivity.
Qed.
Theorem c32_kept : forall s a m o, reachable s -> answer s (AOutgoing a m) = Ok (OOutgoing o) -> hget_all m (L "Autocrypt") <> [] ->
  hget_all (out_msg o) (L "Autocrypt") = hget_all m (L "Autocrypt") /\ out_added o = None.
Proof.
  intros s a m o Hr H Hn. apply answer_outgoing in H as [He H]; [|exact Hr]. pose proof (out_ac _ _ _ _ _ Hr He H) as Hac.
  apply outgoing_ok in H as [_ [_ [_ [s1 [m2 [Hr1 [Hg [Hp [Hadd Hway]]]]]]]]]; [|exact Hr|exact He].
  destruct Hadd as [[_ [Ha _]]|[Ha _]]; [|congruence]. rewrite Ha in *. rewrite Hac, app_nil_r. auto.
Qed.
Lemma way_gpg s a m o s1 m2 s' : reachable s1 -> exists_acct s1 a -> way s s' a m o s1 m2 -> only_gpg s1 s'.
Proof.
  intros Hr1 He1 Hway. pose proof (reachable_WF s1 Hr1) as Hw1.
  destruct Hway as [[H1 [H2 ->]]|[H1 [f [r [H2 [H3 [[H4 [-> H6]]|[H4 [H5 [khs H6]]]]]]]]]]; try apply only_gpg_refl.
  destruct (exists_own s1 a Hw1 He1) as [c [own Ho]].
  apply (encrypt_mime_ok s1 s' a _ _ _ _ own c Hw1 Ho) in H6. apply H6.
Qed.
Theorem c32_added : forall s a m o, reachable s -> answer s (AOutgoing a m) = Ok (OOutgoing o) -> hget_all m (L "Autocrypt") = [] ->
  exists v c kh key, hget_all (out_msg o) (L "Autocrypt") = [v] /\ own_of s a = Some (c, kh) /\
    own_public_key s (after s (AOutgoing a m)) kh key /\
    make_ac_header_value (from_addr m) key (cf_pref c) = Ok v /\
    (is_bytes key = true -> key <> [] -> ~ In 59%N (sender_of m) -> norm (strip (sender_of m)) = sender_of m ->
     parse_ac_headervalue v = Ok (PAH (Some key) (Some (sender_of m)) (Some (cf_pref c)) (Some []) None)).
Proof.
  intros s a m o Hr H Hn. pose proof (reachable_WF s Hr) as Hw. apply answer_outgoing in H as [He H]; [|exact Hr].
  pose proof (out_ac _ _ _ _ _ Hr He H) as Hac.
  apply outgoing_ok in H as [_ [_ [_ [s1 [m2 [Hr1 [Hg [Hp [Hadd Hway]]]]]]]]]; [|exact Hr|exact He].
  destruct Hadd as [[Ha _]|[_ [v [Ha Hv]]]]; [congruence|]. rewrite Ha, Hn in Hac.
  apply make_ac_header_ok in Hv as [_ [_ [c [k [key [Hc [Hk [Hpub Hmk]]]]]]]].
  exists v, c, (kg_kh k), key. split; [exact Hac|]. split; [rewrite own_of_spec by exact Hw; rewrite Hc, Hk; reflexivity|].
  split.
  { destruct Hpub as [home [argv [r [R1 R2]]]]. exists home, argv, r. split; [|exact R2].
    assert (He1 : exists_acct s1 a) by (apply (same_peer s s1 a [] Hw (reachable_WF s1 Hr1) (proj1 Hg) He)).
    eapply ran_here; [apply only_gpg_refl|exact R1|eapply way_gpg; eauto]. }
  split; [exact Hmk|]. intros K1 K2 K3 K4.
  assert (Hpref : cf_pref c = L "nopreference" \/ cf_pref c = L "mutual").
  { pose proof (wf_pref s a c Hw Hc) as Hv. unfold valid_pref in Hv. apply mem_text_In in Hv. destruct Hv as [<-|[<-|[]]]; auto. }
  destruct (c24 (from_addr m) key (cf_pref c) K1 K2 K3 K4 Hpref) as [v' [V1 V2]]. rewrite Hmk in V1. injection V1 as <-. exact V2.
Qed.

(** ** C33 *)
Lemma key_in_use_fun s a y k1 k2 : key_in_use s a y k1 -> key_in_use s a y k2 -> k1 = k2.
Proof.
  intros [v [Hv Hk]] [w [Hw Hl]]. rewrite Hv in Hw. injection Hw as <-.
  destruct Hk as [[H1 ->]|[H1 [c [Ho _]]]], Hl as [[H2 ->]|[H2 [d [Hp _]]]]; congruence.
Qed.
Lemma Forall2_In_l {A B} (P : A -> B -> Prop) l k x : Forall2 P l k -> In x l -> exists y, In y k /\ P x y.
Proof. induction 1; intros []; [subst; eexists; split; [left; reflexivity|auto]|]. destruct IHForall2 as [z [H1' H2']]; auto. exists z. split; [right|]; auto. Qed.
Lemma Forall2_In_r {A B} (P : A -> B -> Prop) l k y : Forall2 P l k -> In y k -> exists x, In x l /\ P x y.
Proof. induction 1; intros []; [subst; eexists; split; [left; reflexivity|auto]|]. destruct IHForall2 as [z [H1' H2']]; auto. exists z. split; [right|]; auto. Qed.

Theorem c33 : forall s a m o, reachable s -> answer s (AOutgoing a m) = Ok (OOutgoing o) -> is_encrypted m = Ok false ->
  is_encrypted (out_msg o) = Ok true ->
  exists c own khs data enc, own_of s a = Some (c, own) /\
    gpg_encrypted s (after s (AOutgoing a m)) khs own data enc /\ m_body (out_msg o) = pgp_body enc /\
    (forall x, In x (targets m) \/ x = from_addr m -> exists kh, key_in_use s a (norm x) kh /\ In kh khs) /\
    (forall kh, In kh khs -> exists x, (In x (targets m) \/ x = from_addr m) /\ key_in_use s a (norm x) kh).
Proof.
  intros s a m o Hr H Hm Ho. pose proof (reachable_WF s Hr) as Hw. apply answer_outgoing in H as [He H]; [|exact Hr].
  apply outgoing_ok in H as [_ [_ [_ [s1 [m2 [Hr1 [Hg [Hp [_ Hway]]]]]]]]]; [|exact Hr|exact He].
  destruct Hway as [[H1 [H2 H3]]|[H1 [f [r [H2 [H3 [[H4 [H5 H6]]|[H4 [H5 [khs H6]]]]]]]]]].
  - congruence.
  - rewrite H4, (prepared_encrypted m _ m2 Hp) in Ho. congruence.
  - apply seal with (1 := Hw) in H6; auto. destruct H6 as [c [own [khs' [gs [clear [data [enc [O1 [O2 [O3 [O4 [O5 [O6 [O7 [O8 O9]]]]]]]]]]]]]]].
    exists c, own, khs', data, enc. do 3 (split; [assumption|]). split.
    + intros x Hx. apply In_everyone in Hx. destruct (Forall2_In_l _ _ _ _ O2 Hx) as [kh [K1 K2]]. eauto.
    + intros kh Hkh. destruct (Forall2_In_r _ _ _ _ O2 Hkh) as [x [K1 K2]]. exists x. split; [apply In_everyone|]; auto.
Qed.

(** ** C34 *)
(** what encrypt_mime makes of a mail *)
Theorem c34_encrypt : forall s a m to em khs, reachable s -> answer s (AEncrypt a m to) = Ok (OEncrypted em khs) ->
  is_encrypted em = Ok true /\ m_headers em = (L "Content-Type", encrypted_ctype) :: outer_headers m /\
  Forall2 (fun x => key_in_use s a (norm x)) to khs /\
  exists c own gs clear data enc, own_of s a = Some (c, own) /\ m_body em = pgp_body enc /\
    gpg_encrypted s (after s (AEncrypt a m to)) khs own data enc /\ flatten clear = Ok data /\
    m_body clear = m_body m /\
    m_headers clear = inner_headers m ++ map (fun v => (L "Autocrypt-Gossip", v)) (concat gs) /\
    Forall2 (fun x => gossip_about s a (norm x)) to gs.
Proof.
  intros s a m to em khs Hr H. pose proof (reachable_WF s Hr) as Hw. apply answer_encrypt in H as [He H]; [|exact Hr].
  destruct (exists_own s a Hw He) as [c [own Ho]].
  apply (encrypt_mime_ok s _ a m to em khs own c Hw Ho) in H as [G [K [gs [clear [data [enc [I1 [I2 [I3 [I4 [I5 [I6 I7]]]]]]]]]]]].
  split; [eapply pgp_encrypted'; eauto|]. split; [exact I7|]. split; [exact K|].
  exists c, own, gs, clear, data, enc. auto 10.
Qed.
Theorem c34_outgoing : forall s a m o, reachable s -> answer s (AOutgoing a m) = Ok (OOutgoing o) -> is_encrypted m = Ok false ->
  is_encrypted (out_msg o) = Ok true ->
  m_headers (out_msg o) = (L "Content-Type", encrypted_ctype) :: without (L "ENCRYPT") (outer_headers m)
    ++ match out_added o with Some v => [(L "Autocrypt", v)] | None => [] end.
Proof.
  intros s a m o Hr H Hm Ho. pose proof (reachable_WF s Hr) as Hw. apply answer_outgoing in H as [He H]; [|exact Hr].
  apply outgoing_ok in H as [_ [_ [_ [s1 [m2 [Hr1 [Hg [Hp [_ Hway]]]]]]]]]; [|exact Hr|exact He].
  destruct Hway as [[H1 [H2 H3]]|[H1 [f [r [H2 [H3 [[H4 [H5 H6]]|[H4 [H5 [khs H6]]]]]]]]]].
  - congruence.
  - rewrite H4, (prepared_encrypted m _ m2 Hp) in Ho. congruence.
  - apply seal with (1 := Hw) in H6; auto. destruct H6 as [c [own [khs' [gs [clear [data [enc [O1 [O2 [O3 [O4 [O5 [O6 [O7 [O8 O9]]]]]]]]]]]]]]]. exact O9.
Qed.
(** and decrypt_mime of an encrypted one *)
Lemma decrypt_mime_ok s s' a m dm infos : arun (decrypt_mime a m) s = (s', Ok (dm, infos)) ->
  is_encrypted m = Ok true /\ only_gpg s s' /\
  exists enc data, cipher_of m = Some enc /\ dm = opened_as m data /\
    exists g r argv, ran s s' (GCall (argv_home argv) argv (Some enc) None) /\
      argv = full_argv g (nopassphrase g ++ [L "--with-colons"; L "--decrypt"]) /\ g_out (snd (gpg r argv (Some enc) None)) = data.
Proof.
  unfold decrypt_mime. intros H. apply arun_bind_ok in H as [s1 [b [H1 H]]]. apply arun_lift_ok in H1 as [-> Hb].
  apply arun_bind_ok in H as [s1 [[] [H1 H]]]. apply arun_assert_ok in H1 as [-> Hbt]. subst b. split; [exact Hb|].
  unfold cipher_of. destruct (m_body m) as [| | |[|p0 [|p1 [|]]]]; try discriminate.
  apply arun_bind_ok in H as [s1 [enc [H1 H]]].
  assert (Henc : s1 = s /\ (match m_body p1 with PBytes d | PStr d => Some d | _ => None end) = Some enc).
  { destruct (m_body p1) as [|t|d|l]; try discriminate.
    - destruct (is_ascii t); [|discriminate]. apply arun_ret_ok in H1 as [-> ->]. auto.
    - destruct (is_ascii d); [|discriminate]. apply arun_ret_ok in H1 as [-> ->]. auto. }
  destruct Henc as [-> Henc]. clear H1. apply arun_bind_ok in H as [s1 [g [H1 H]]]. apply get_bingpg_ok in H1 as ->.
  apply arun_bind_ok in H as [s1 [[dec inf] [H1 H]]]. apply arun_ret_ok in H as [-> [= -> ->]].
  unfold gpg_decrypt, version_known in H1. apply arun_bind_ok in H1 as [sv [v [Hv H1]]]. apply arun_lift_ok in Hv as [-> _].
  apply arun_bind_ok in H1 as [s2 [[out err] [H1 H]]].
  apply arun_bind_ok in H as [s3 [inf' [H2 H]]]. apply arun_lift_ok in H2 as [-> _]. apply arun_ret_ok in H as [-> [= -> ->]].
  apply gpg_outerr_ok in H1 as [G1 [G2 [r [_ G4]]]]. injection G4 as G4.
  split; [exact G1|]. exists enc, out. split; [exact Henc|]. split; [reflexivity|].
  exists g, r. eexists. split; [eexists; split; [exact G2|left; reflexivity]|]. split; [reflexivity|exact G4].
Qed.
Lemma opened_headers m data : m_body (opened_as m data) = m_body (parse_bytes data) /\ m_headers (opened_as m data) = m_headers (parse_bytes data) ++ outer_headers m.
Proof. apply transfer_headers. Qed.
Lemma decrypt_argv_command g : decrypt_command (full_argv g (nopassphrase g ++ [L "--with-colons"; L "--decrypt"])).
Proof.
  unfold full_argv, nopassphrase.
  exists (gp_path g), (homedirflags g), (if gpg21 (gp_path g) then [L "--pinentry-mode=loopback"] else []).
  split; [rewrite <- !app_assoc; reflexivity|]. split.
  - unfold homedirflags. destruct (gp_home g) as [h|]; [destruct (nonempty h); eauto | auto].
  - destruct (gpg21 (gp_path g)); auto.
Qed.
Theorem c34_decrypt : forall s a m dm infos, reachable s -> answer s (ADecrypt a m) = Ok (ODecrypted dm infos) ->
  is_encrypted m = Ok true /\
  exists enc data, cipher_of m = Some enc /\
    m_body dm = m_body (parse_bytes data) /\ m_headers dm = m_headers (parse_bytes data) ++ outer_headers m /\
    exists home argv r, ran s (after s (ADecrypt a m)) (GCall home argv (Some enc) None) /\
      decrypt_command argv /\ g_out (snd (gpg r argv (Some enc) None)) = data.
Proof.
  intros s a m dm infos Hr. pose proof (reachable_WF s Hr) as Hw. unfold answer, after. cbn [exec].
  destruct (exists_acct_dec s a) as [He|He]; [|rewrite arun_with_account_none by auto; discriminate].
  rewrite arun_with_account by auto. rewrite arun_bind. destruct (arun (decrypt_mime a m) s) as [s1 [[d1 i1]|e]] eqn:Ed; cbn [snd fst]; [|discriminate].
  cbn. intros [= -> ->]. apply decrypt_mime_ok in Ed as [E1 [_ [enc [data [E2 [-> [g [r [argv [E3 [E4 E5]]]]]]]]]]]. split; [exact E1|].
  exists enc, data. destruct (opened_headers m data) as [O1 O2]. do 3 (split; [auto|]).
  exists (argv_home argv), argv, r. split; [exact E3|]. split; [|exact E5]. rewrite E4. apply decrypt_argv_command.
Qed.
(** there and back: if gpg gives back what it was given, and parsing is the inverse of
    writing, decryption of the encrypted mail has the body and headers of the original (the
    headers that describe the body, then gossip headers, then all others) *)
Theorem c34_roundtrip : forall s a m to em khs, reachable s -> answer s (AEncrypt a m to) = Ok (OEncrypted em khs) ->
  (forall x data, m_body x = m_body m -> flatten x = Ok data -> parse_bytes data = x) ->
  forall s2 b dm infos, reachable s2 -> answer s2 (ADecrypt b em) = Ok (ODecrypted dm infos) ->
  (forall khs own data enc, gpg_encrypted s (after s (AEncrypt a m to)) khs own data enc -> forall home argv r,
     ran s2 (after s2 (ADecrypt b em)) (GCall home argv (Some enc) None) -> g_out (snd (gpg r argv (Some enc) None)) = data) ->
  exists gs, Forall2 (fun x => gossip_about s a (norm x)) to gs /\ m_body dm = m_body m /\
    m_headers dm = inner_headers m ++ map (fun v => (L "Autocrypt-Gossip", v)) (concat gs) ++ outer_headers m.
Proof.
  intros s a m to em khs Hr H Hpar s2 b dm infos Hr2 H2 Hgpg.
  destruct (c34_encrypt s a m to em khs Hr H) as [_ [Hh [_ [c [own [gs [clear [data [enc [I1 [I2 [I3 [I4 [I5 [I6 I7]]]]]]]]]]]]]]].
  destruct (c34_decrypt s2 b em dm infos Hr2 H2) as [_ [enc' [data' [D1 [D2 [D3 [home [argv [r [D4 [D5 D6]]]]]]]]]]].
  assert (enc' = enc) by (unfold cipher_of in D1; rewrite I2 in D1; cbn in D1; congruence). subst enc'.
  rewrite (Hgpg _ _ _ _ I3 _ _ r D4) in D6. subst data'. rewrite (Hpar _ _ I5 I4) in D2, D3.
  exists gs. split; [exact I7|]. split; [congruence|]. rewrite D3, I6, <- app_assoc. f_equal. f_equal.
  unfold outer_headers at 1. rewrite Hh. cbn [filter].
  change (negb (named mime_headers (L "Content-Type", encrypted_ctype))) with false. cbv iota.
  unfold outer_headers. rewrite filter_filter. apply filter_ext. intros x. destruct (negb _); reflexivity.
Qed.

(** ** C35 *)
Lemma keyed_nonempty l : peer_ok l -> public_keyhandle l <> [] -> public_keydata l <> [].
Proof.
  intros Hp. unfold public_keyhandle, public_keydata, entry_for_encryption.
  destruct (has_direct_key l) eqn:Ed.
  - unfold has_direct_key, latest_ac_entry in *. destruct (find _ (msg_entries l)) as [e|] eqn:Ef; [|discriminate].
    cbn [option_map]. intros _. apply find_some in Ef as [_ Ef]. destruct (me_keydata e); [discriminate|congruence].
  - clear Ed. unfold latest_gossip_entry. induction Hp; cbn [gossip_entries] in *; auto.
    cbn. intros _ Hk. subst kd. discriminate.
Qed.
Theorem c35 : forall s a m to em khs, reachable s -> answer s (AEncrypt a m to) = Ok (OEncrypted em khs) ->
  exists clear data enc gs c own, m_body em = pgp_body enc /\ own_of s a = Some (c, own) /\
    gpg_encrypted s (after s (AEncrypt a m to)) khs own data enc /\ flatten clear = Ok data /\
    hget_all clear (L "Autocrypt-Gossip") = concat gs /\
    Forall2 (fun x g => exists v, peer_of s a (norm x) = Some v /\
       (pv_keyhandle v = [] /\ g = [] \/
        pv_keyhandle v <> [] /\ exists h, g = [h] /\
          (is_bytes (pv_keydata v) = true -> ~ In 59%N (norm (norm x)) -> norm (strip (norm (norm x))) = norm (norm x) ->
           key_header h (norm (norm x)) (pv_keydata v) (L "nopreference")))) to gs.
Proof.
  intros s a m to em khs Hr H. pose proof (reachable_WF s Hr) as Hw.
  destruct (c34_encrypt s a m to em khs Hr H) as [_ [Hh [_ [c [own [gs [clear [data [enc [I1 [I2 [I3 [I4 [I5 [I6 I7]]]]]]]]]]]]]]].
  exists clear, data, enc, gs, c, own. do 4 (split; [assumption|]). split.
  - rewrite (hget_all_headers _ _ _ I6). rewrite filter_app, map_app.
    assert (Hn : filter (fun kv : text * text => text_eqb (lower (fst kv)) (lower (L "Autocrypt-Gossip"))) (inner_headers m) = []).
    { unfold inner_headers. rewrite filter_filter. rewrite (filter_ext _ (fun _ => false)); [induction (m_headers m); auto|].
      intros [k v]. cbn [fst]. destruct (text_eqb_spec (lower k) (lower (L "Autocrypt-Gossip"))) as [He|He]; [|apply andb_false_r].
      rewrite andb_true_r. unfold named. cbn [fst]. rewrite He. reflexivity. }
    rewrite Hn. cbn [map app]. clear I6. induction (concat gs) as [|v vs IH]; [reflexivity|]. cbn [map filter fst snd].
    change (text_eqb (lower (L "Autocrypt-Gossip")) (lower (L "Autocrypt-Gossip"))) with true. cbv iota. cbn [map snd]. f_equal. exact IH.
  - eapply Forall2_mono; [|exact I7]. intros x g [v [Hv Hg]]. exists v. split; [exact Hv|].
    destruct Hg as [[H1 ->]|[H1 [h [Hm ->]]]]; [left; auto|]. right. split; [exact H1|]. exists h. split; [reflexivity|].
    intros K1 K2 K3. assert (Hne : pv_keydata v <> []).
    { apply peer_of_some in Hv as [_ ->]; [|exact Hw]. apply (keyed_nonempty (peer_log s a (norm (norm x)))); [apply (wf_peer s Hw)|exact H1]. }
    destruct (c24 (norm x) (pv_keydata v) (L "nopreference") K1 Hne K2 K3 (or_introl eq_refl)) as [v' [V1 V2]].
    rewrite Hm in V1. injection V1 as <-. exists []. exact V2.
Qed.

(** for the examples: the new part of the trace *)
Lemma ran_new s s' g : ran s s' g -> In g (firstn (length (a_trace s') - length (a_trace s))%nat (a_trace s')).
Proof.
  intros [l [-> H]]. rewrite app_length, firstn_app.
  replace (length l + length (a_trace s) - length (a_trace s))%nat with (length l) by lia. rewrite firstn_all. apply in_or_app. auto.
Qed.
End Out2.
