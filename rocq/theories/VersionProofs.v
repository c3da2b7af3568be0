(** The version that gpg tells (C71). *)
From Verif Require Import Base PyStr Env Prog Chain Gpg Mime States Recommendation Account Cmdline Bot Fs Api Steps StepFacts Exec ApiScope
  Spec Obs PeerSpec OutSpec Rings CliSpec CliProofs CliProofs2 GpgSpec GpgText.

Section Version.
Context {E : Env}.

Lemma digit_class c : digit c -> vclass_of c = CDigit.
Proof.
  unfold digit, vclass_of, is_digit. intros [H1 H2]. apply N.leb_le in H1, H2. rewrite H1, H2. reflexivity.
Qed.
Lemma vruns_dot s : vruns (46%N :: s) = (CDot, [46%N]) :: vruns s.
Proof. cbn [vruns]. change (vclass_of 46) with CDot. destruct (vruns s) as [|[k r] rs]; reflexivity. Qed.
Lemma vruns_digits t s : Forall digit t -> t <> [] -> (s = [] \/ exists r, s = 46%N :: r) -> vruns (t ++ s) = (CDigit, t) :: vruns s.
Proof.
  intros Hd Hn Hs. induction Hd as [|c t Hc Hd IH]; [congruence|]. cbn [app vruns]. rewrite (digit_class c Hc). destruct t as [|c' t].
  - cbn [app]. destruct Hs as [->|[r ->]]; [reflexivity|]. rewrite vruns_dot. reflexivity.
  - rewrite IH by discriminate. reflexivity.
Qed.
Lemma written_num n t : written n t -> num_of t = n.
Proof. intros [_ [H _]]. exact H. Qed.
Lemma loose_numbers ns ts : Forall2 written ns ts -> ns <> [] -> loose_version (join (L ".") ts) = map VNum ns.
Proof.
  unfold loose_version. intros H Hn. induction H as [|n t ns ts Hw H IH]; [congruence|].
  destruct Hw as [W1 [W2 [W3 W4]]]. destruct H as [|n' t' ns ts Hw' H].
  - cbn [join map]. rewrite <- (app_nil_r t), vruns_digits by auto. cbn [vruns flat_map vpart_of fst snd app]. rewrite <- W2. reflexivity.
  - change (join (L ".") (t :: t' :: ts)) with (t ++ 46%N :: join (L ".") (t' :: ts)). rewrite vruns_digits by eauto. rewrite vruns_dot.
    cbn [flat_map vpart_of fst snd app map]. rewrite IH by discriminate. rewrite <- W2. reflexivity.
Qed.
Lemma join_dot_chars ns ts c : Forall2 written ns ts -> c <> 46%N -> ~ digit c -> ~ In c (join (L ".") ts).
Proof.
  intros H H1 H2 Hi. induction H as [|n t ns ts [W1 _] H IH]; [destruct Hi|].
  assert (Ht : ~ In c t) by (intros Hc; rewrite Forall_forall in W1; apply H2, W1, Hc).
  destruct ts as [|t' ts]; [contradiction|]. change (join (L ".") (t :: t' :: ts)) with (t ++ 46%N :: join (L ".") (t' :: ts)) in Hi.
  apply in_app_or in Hi as [Hi|[Hi|Hi]]; [contradiction|congruence|auto].
Qed.
Lemma join_dot_nonnil ns ts : Forall2 written ns ts -> ns <> [] -> join (L ".") ts <> [].
Proof.
  intros H Hn. destruct H as [|n t ns ts [_ [_ [W3 _]]] H]; [congruence|]. destruct ts as [|t' ts]; [exact W3|].
  change (join (L ".") (t :: t' :: ts)) with (t ++ 46%N :: join (L ".") (t' :: ts)). destruct t; discriminate.
Qed.
Lemma not_in_ne {c : N} {s} : ~ In c s -> forall x, In x s -> x <> c.
Proof. intros H x Hx ->. contradiction. Qed.
Lemma split_first c a r : ~ In c a -> (r = [] \/ exists r', r = c :: r') -> hd [] (split_on c (a ++ r)) = a.
Proof.
  intros H [->|[r' ->]].
  - rewrite app_nil_r, split_on_no by (apply not_in_ne; exact H). reflexivity.
  - rewrite split_on_app by (apply not_in_ne; exact H). reflexivity.
Qed.
Lemma first_line_cut a r : ~ In 10%N a -> exists r', hd [] (split_on 10 (a ++ r)) = a ++ r' /\ (r = [] -> r' = []) /\ (forall q, r = 10%N :: q -> r' = []) /\ (forall q, r = 32%N :: q -> exists q', r' = 32%N :: q').
Proof.
  intros H. assert (Hs : exists x y, r = x ++ y /\ ~ In 10%N x /\ (y = [] \/ exists q, y = 10%N :: q)).
  { clear. induction r as [|c r [x [y [-> [H1 H2]]]]]; [exists [], []; auto|]. destruct (N.eq_dec c 10) as [->|Hc].
    - exists [], (10%N :: x ++ y). split; [reflexivity|]. split; [intros []|eauto].
    - exists (c :: x), y. split; [reflexivity|]. split; [intros [H|H]; [congruence|contradiction]|exact H2]. }
  destruct Hs as [x [y [-> [H1 H2]]]]. exists x. rewrite app_assoc, split_first; [|intros Hi; apply in_app_or in Hi as [Hi|Hi]; contradiction|exact H2].
  split; [reflexivity|]. split; [intros Hx; destruct x; [reflexivity|discriminate]|]. split.
  - intros q Hq. destruct x as [|c x]; [reflexivity|]. injection Hq as -> _. exfalso. apply H1. left. reflexivity.
  - intros q Hq. destruct x as [|c x]; [|injection Hq as -> _; eauto]. destruct H2 as [->|[q' ->]]; discriminate Hq.
Qed.
Lemma told_version p ns : tells_version p ns -> gpg_version p = Ok (map VNum ns).
Proof.
  intros [out [err [e [w1 [w2 [ts [rest [Hv [He [Ho [H32 [H10 [Hts [Hn Hrest]]]]]]]]]]]]]]. set (v := join (L ".") ts) in *.
  unfold gpg_version, version_info. rewrite Hv. cbn [g_ret g_err g_out Z.eqb]. rewrite He, Ho. cbn [rbind].
  assert (Hv32 : ~ In 32%N v) by (eapply join_dot_chars; [exact Hts|discriminate|unfold digit; lia]).
  assert (Hv10 : ~ In 10%N v) by (eapply join_dot_chars; [exact Hts|discriminate|unfold digit; lia]).
  assert (Hw : forall c, ~ In c (w1 ++ w2) -> ~ In c w1 /\ ~ In c w2) by (intros c H; split; intros Hi; apply H, in_or_app; auto).
  destruct (Hw _ H32) as [A1 A2], (Hw _ H10) as [B1 B2].
  change (w1 ++ L " " ++ w2 ++ L " " ++ v ++ rest) with (w1 ++ 32%N :: w2 ++ 32%N :: v ++ rest).
  destruct (first_line_cut (w1 ++ 32%N :: w2 ++ 32%N :: v) rest) as [r' [Hl [R1 [R2 R3]]]].
  { intros Hi. apply in_app_or in Hi as [Hi|[Hi|Hi]]; [contradiction|discriminate|]. apply in_app_or in Hi as [Hi|[Hi|Hi]]; [contradiction|discriminate|contradiction]. }
  replace (w1 ++ 32%N :: w2 ++ 32%N :: v ++ rest) with ((w1 ++ 32%N :: w2 ++ 32%N :: v) ++ rest) by (rewrite <- !app_assoc; cbn [app]; rewrite <- app_assoc; reflexivity).
  rewrite Hl. replace ((w1 ++ 32%N :: w2 ++ 32%N :: v) ++ r') with (w1 ++ 32%N :: w2 ++ 32%N :: v ++ r') by (rewrite <- !app_assoc; cbn [app]; rewrite <- app_assoc; reflexivity).
  rewrite split_on_app by (apply not_in_ne; exact A1). rewrite split_on_app by (apply not_in_ne; exact A2).
  assert (Hr' : r' = [] \/ exists q, r' = 32%N :: q).
  { destruct Hrest as [->|[q [->| ->]]]; [left; apply R1; reflexivity|left; eapply R2; reflexivity|right; eapply R3; reflexivity]. }
  pose proof (split_first 32 v r' Hv32 Hr') as Hs. destruct (split_on 32 (v ++ r')) as [|v' l] eqn:Es; [exfalso; eapply split_on_nonnil; eauto|]. cbn [hd] in Hs. subst v'.
  cbn [nth_error]. pose proof (join_dot_nonnil ns ts Hts Hn) as Hne. fold v in Hne. pose proof (loose_numbers ns ts Hts Hn) as Hlo. fold v in Hlo.
  destruct v as [|c v']; [congruence|]. rewrite Hlo. reflexivity.
Qed.
Lemma newer_iff ns : exists b, version_ge (map VNum ns) [VNum 2; VNum 1] = Ok b /\ (b = true <-> from_2_1 ns).
Proof.
  unfold from_2_1. destruct ns as [|x ns]; cbn [map version_ge].
  { exists false. split; [reflexivity|]. split; [discriminate|]. intros [[y [r [H _]]]|[y [r [H _]]]]; discriminate. }
  destruct (N.eqb_spec x 2) as [->|Hx].
  - destruct ns as [|y ns]; cbn [map version_ge].
    + exists false. split; [reflexivity|]. split; [discriminate|]. intros [[y [r [[= <- <-] H]]]|[y [r [H _]]]]; [lia|discriminate].
    + destruct (N.eqb_spec y 1) as [->|Hy].
      * exists true. split; [destruct ns; reflexivity|]. split; [|reflexivity]. intros _. right. exists 1%N, ns. split; [reflexivity|lia].
      * exists (N.leb 1 y). split; [reflexivity|]. rewrite N.leb_le. split.
        -- intros H. right. exists y, ns. auto.
        -- intros [[z [r [[= <- <-] H]]]|[z [r [[= <- <-] H]]]]; lia.
  - exists (N.leb 2 x). split; [reflexivity|]. rewrite N.leb_le. split.
    + intros H. left. exists x, ns. split; [reflexivity|lia].
    + intros [[z [r [[= <- <-] H]]]|[z [r [[= <- _] _]]]]; lia.
Qed.
Lemma told_gpg21 p ns : tells_version p ns -> exists b, isgpg21 p = Ok b /\ (b = true <-> from_2_1 ns).
Proof. intros H. unfold isgpg21. rewrite (told_version p ns H). cbn [rbind]. apply newer_iff. Qed.
Lemma tells_printed p ns out : version_run p = GRes 0 out [] -> out = L "gpg (GnuPG) " ++ join (L ".") (map dec_N ns) -> utf8 out = Some out -> ns <> [] ->
  tells_version p ns.
Proof.
  intros Hv Ho Hu Hn. exists out, [], [], (L "gpg"), (L "(GnuPG)"), (map dec_N ns), []. split; [exact Hv|]. split; [reflexivity|].
  split; [rewrite Hu, app_nil_r, Ho; reflexivity|].
  assert (Hi : forall c, In c (L "gpg" ++ L "(GnuPG)") -> c <> 32%N /\ c <> 10%N) by (intros c Hc; vm_compute in Hc; repeat destruct Hc as [<-|Hc]; try (split; discriminate); destruct Hc).
  split; [intros Hc; apply Hi in Hc as [Hc _]; congruence|]. split; [intros Hc; apply Hi in Hc as [_ Hc]; congruence|].
  split; [|split; [exact Hn|left; reflexivity]]. clear. induction ns; constructor; [apply dec_N_written|assumption].
Qed.

Theorem c71 : forall s c g, reachable s -> ran s (after s c) g ->
  exists p home pass args, gc_argv g = [p; L "--batch"] ++ home ++ args /\ home_args home /\ gpg_use pass args (gc_in g) (gc_tmp g) /\
    forall ns, tells_version p ns ->
      (from_2_1 ns /\ pass = [L "--passphrase"; L "123"; L "--pinentry-mode=loopback"]) \/ (~ from_2_1 ns /\ pass = [L "--passphrase"; L "123"]).
Proof.
  intros s c g Hr Hg. destruct (bingpg_forms s c g Hr Hg) as [b [cfg [rest [H1 [H2 H3]]]]].
  exists (gp_path b), (homedirflags b), (nopassphrase b), rest. split; [exact H1|]. split; [apply flags_home|]. split; [apply cmd_usage, H3|].
  intros ns Hns. destruct (told_gpg21 _ _ Hns) as [x [Hx Hb]]. unfold nopassphrase, gpg21. rewrite Hx. destruct x.
  - left. split; [apply Hb; reflexivity|reflexivity].
  - right. split; [intros H; apply Hb in H; discriminate|reflexivity].
Qed.
End Version.
