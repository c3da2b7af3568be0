(** A mail that process_outgoing made is left alone when it is processed again (C68). *)
From Verif Require Import Base PyStr Base64 Env Prog Chain Gpg Mime States Recommendation Account Cmdline Bot Fs Api Steps StepFacts Exec ApiScope
  Spec Obs PeerSpec Incoming PeerFacts PeerProofs RecSpec RecProofs HeaderProofs OutSpec OutProofs OutProofs2 AcctSpec AcctFacts AcctProofs AcctProofs2 ImportProofs CliSpec CliProofs CliProofs2 Commands CmdSpec CmdProofs.

Section OutAgain.
Context {E : Env}.

Lemma no_header_hget m n : ~ has_header m n -> hget_all m n = [].
Proof.
  intros H. unfold hget_all. destruct (filter _ (m_headers m)) as [|[k v] l] eqn:Ef; [reflexivity|]. exfalso. apply H.
  assert (Hi : In (k, v) (filter (fun kv => text_eqb (lower (fst kv)) (lower n)) (m_headers m))) by (rewrite Ef; left; reflexivity).
  apply filter_In in Hi as [Hi He]. exists k, v. split; [exact Hi|]. apply text_eqb_eq. exact He.
Qed.
Lemma without_id n h : (forall k v, In (k, v) h -> lower k <> lower n) -> without n h = h.
Proof.
  induction h as [|[k v] h IH]; intros H; [reflexivity|]. cbn [without filter fst].
  destruct (text_eqb_spec (lower k) (lower n)) as [He|_]; [exfalso; apply (H k v); [left; reflexivity|exact He]|].
  cbn [negb]. f_equal. apply IH. intros k' v' Hi. apply (H k' v'). right. exact Hi.
Qed.
Lemma prepared_same m m2 : ~ has_header m (L "ENCRYPT") -> prepared m None m2 -> m2 = m.
Proof.
  intros Hn [Hb Hh]. rewrite app_nil_r, without_id in Hh.
  - destruct m, m2. cbn [m_headers m_body] in *. subst. reflexivity.
  - intros k v Hi He. apply Hn. exists k, v. auto.
Qed.

(** Mail that is encrypted and has an Autocrypt header is left alone at any time. *)
Theorem c68_encrypted : forall s a m, reachable s -> has_account s a -> is_encrypted m = Ok true ->
  hget_all m (L "Autocrypt") <> [] -> ~ has_header m (L "ENCRYPT") ->
  after s (AOutgoing a m) = s /\ exists o, answer s (AOutgoing a m) = Ok (OOutgoing o) /\ out_msg o = m /\ out_added o = None.
Proof.
  intros s a m Hr Ha Hb Hac Hn. pose proof (reachable_WF s Hr) as Hw.
  apply has_account_exists in Ha as He; [|exact Hw].
  assert (Hrun : exists o, arun (process_outgoing a m) s = (s, Ok o) /\ out_msg o = m /\ out_added o = None).
  { unfold process_outgoing. rewrite hget_hd, (no_header_hget m _ Hn). cbn [hd_error]. rewrite arun_bind, arun_ret. cbv zeta.
    rewrite hin_all. destruct (hget_all m (L "Autocrypt")) as [|x l] eqn:Ea; [congruence|]. cbn [nonempty].
    rewrite arun_bind, arun_ret, arun_bind_lift, Hb. rewrite arun_bind, arun_ret, arun_ret. eexists. split; [reflexivity|]. auto. }
  destruct Hrun as [o [H1 [H2 H3]]]. unfold after, answer. cbn [exec]. rewrite arun_with_account by auto. rewrite arun_bind, H1.
  split; [reflexivity|]. exists o. auto.
Qed.

Theorem c68 : forall s a m o, reachable s -> answer s (AOutgoing a m) = Ok (OOutgoing o) ->
  control m <> Some (L "no") \/ is_encrypted m = Ok true \/ (exists r, recommended s a (others m) false r /\ r <> L "encrypt") ->
  let s' := after s (AOutgoing a m) in
  after s' (AOutgoing a (out_msg o)) = s' /\
  exists o', answer s' (AOutgoing a (out_msg o)) = Ok (OOutgoing o') /\ out_msg o' = out_msg o /\ out_added o' = None.
Proof.
  intros s a m o Hr H Hc s'. pose proof (reachable_WF s Hr) as Hw. pose proof H as Hans.
  assert (Hr' : reachable s') by (apply reachable_after; exact Hr). pose proof (reachable_WF s' Hr') as Hw'.
  pose proof (c31 s a m o Hr H) as Hn. apply answer_outgoing in H as [He H]; [|exact Hr].
  destruct (exists_own s a Hw He) as [c [own Ho]].
  pose proof (out_ac _ _ _ _ _ Hr He H) as Hac.
  apply outgoing_ok in H as [_ [_ [_ [s1 [m2 [Hr1 [Hg [Hp [Hadd Hway]]]]]]]]]; [|exact Hr|exact He].
  assert (Hac' : hget_all (out_msg o) (L "Autocrypt") <> []).
  { rewrite Hac. destruct Hadd as [[Hne _]|[_ [v [-> _]]]]; [destruct (hget_all m (L "Autocrypt")); [congruence|discriminate]|].
    destruct (hget_all m (L "Autocrypt")); discriminate. }
  assert (He1 : exists_acct s1 a) by (apply (same_peer s s1 a [] Hw (reachable_WF s1 Hr1) (proj1 Hg) He)).
  assert (Hg' : only_gpg s s') by (eapply only_gpg_trans; [exact Hg|]; eapply (way_gpg s a m o s1 m2 s' Hr1 He1); exact Hway).
  destruct (same_peer s s' a [] Hw Hw' (proj1 Hg') He) as [He' [_ Ho']]. rewrite Ho in Ho'.
  assert (Ha' : has_account s' a) by (unfold has_account; congruence).
  assert (Hcases : is_encrypted (out_msg o) = Ok true \/
    (is_encrypted m = Ok false /\ out_msg o = m2 /\ exists f r, hget_all m (L "From") = [f] /\ recommended s a (others m) false r /\ r <> L "encrypt")).
  { destruct Hway as [[H1 [H2 H3]]|[H1 [f [r [H2 [H3 [[H4 [H5 H6]]|[H4 [H5 [khs H6]]]]]]]]]].
    - left. rewrite H2, (prepared_encrypted m _ m2 Hp). exact H1.
    - right. split; [exact H1|]. split; [exact H4|]. exists f, r. split; [exact H2|]. split; [exact H3|].
      destruct Hc as [Hc|[Hc|[q [Hq Hqe]]]]; [destruct H6 as [H6|[H6 _]]; congruence|congruence|].
      rewrite (recommended_fun _ _ _ _ _ _ H3 Hq). exact Hqe.
    - left. apply seal with (1 := Hw) in H6; auto. destruct H6 as [c' [own' [khs' [gs [clear [data [enc [O1 [O2 [O3 [O4 [O5 [O6 [O7 [O8 O9]]]]]]]]]]]]]]].
      eapply pgp_encrypted'; eauto. }
  destruct Hcases as [Hb|[Hb [Hm2 [f [r [Hf [Hrec Hne]]]]]]].
  { apply c68_encrypted; auto. }
  rewrite <- Hm2 in Hp.
  assert (Hb' : is_encrypted (out_msg o) = Ok false) by (rewrite (prepared_encrypted m _ _ Hp); exact Hb).
  assert (Hf' : hget_all (out_msg o) (L "From") = [f]) by (rewrite (prepared_hget_all m _ _ (L "From") Hp); [exact Hf|discriminate|discriminate]).
  assert (Hfa : from_addr (out_msg o) = from_addr m) by (unfold from_addr; rewrite !hget_hd, Hf', Hf; reflexivity).
  assert (Hoth : others (out_msg o) = others m).
  { unfold others, targets. rewrite Hfa, !(prepared_hget_all m _ _ _ Hp) by discriminate. reflexivity. }
  assert (Hctl : control (out_msg o) = None) by (unfold control; rewrite hget_hd, (no_header_hget _ _ Hn); reflexivity).
  assert (Hrec' : recommended s' a (others (out_msg o)) false r).
  { rewrite Hoth. destruct (recommended_run s a c own (others m) false Hr Ho) as [_ [r1 [Q1 Q2]]].
    destruct (recommended_run s' a c own (others m) false Hr' Ho') as [_ [r2 [Q3 Q4]]].
    apply (overall_logs s s') in Q4; [|exact (proj1 Hg')]. rewrite (recommended_fun _ _ _ _ _ _ Hrec Q1), (overall_fun _ _ _ _ _ _ _ Q2 Q4). exact Q3. }
  destruct (c30_returns s' a (out_msg o) f false Hr' Ha' Hf' Hac' Hb') as [o' Hans'].
  { right. split; [left; exact Hctl|]. exists r. auto. }
  pose proof Hans' as H'. apply answer_outgoing in H' as [_ H']; [|exact Hr'].
  apply outgoing_ok in H' as [_ [_ [_ [s3 [m3 [_ [_ [Hp3 [Hadd3 Hway3]]]]]]]]]; [|exact Hr'|exact He'].
  destruct Hadd3 as [[_ [Hadd3 Hs3]]|[Hadd3 _]]; [|congruence]. rewrite Hadd3 in Hp3. apply prepared_same in Hp3; [|exact Hn].
  destruct Hway3 as [[H1 [H2 H3]]|[H1 [f3 [r3 [H2 [H3 [[H4 [H5 H6]]|[H4 [[H5|[_ H5]] [khs H6]]]]]]]]]].
  - congruence.
  - split; [congruence|]. exists o'. split; [exact Hans'|]. split; [congruence|exact Hadd3].
  - exfalso. apply Hne. rewrite <- H5. eapply recommended_fun; eauto.
  - congruence.
Qed.
End OutAgain.
