(** Importing a key by hand (C49). *)
From Verif Require Import Base PyStr Env Prog Chain Gpg Mime States Recommendation Account Cmdline Bot Fs Api Steps StepFacts Exec ApiScope
  Spec PeerSpec OutSpec AcctSpec Obs PeerFacts PeerProofs4 Quiet OutProofs AcctFacts.

Open Scope Z_scope.
Section ImportProofs.
Context {E : Env}.

(** ** Key listings *)
Fixpoint infos_of (rs : list record) : list keyinfo :=
  match rs with
  | RPub i u :: rs' => KeyInfo i (given u ++ until_pub rs') true :: infos_of rs'
  | RSub i u :: rs' => KeyInfo i (given u) false :: infos_of rs'
  | _ :: rs' => infos_of rs'
  | [] => []
  end.
Definition extend (acc : list keyinfo) (us : list text) : list keyinfo := fold_left add_uid us acc.
Lemma extend_main i us acc : forall vs, extend (KeyInfo i vs true :: acc) us = KeyInfo i (vs ++ us) true :: acc.
Proof.
  induction us as [|u us IH]; intros vs; [rewrite app_nil_r; reflexivity|].
  unfold extend. cbn [fold_left add_uid ki_main ki_id ki_uids]. fold (extend (KeyInfo i (vs ++ [u]) true :: acc) us).
  rewrite IH, <- app_assoc. reflexivity.
Qed.
Lemma extend_sub i vs us : forall acc, extend (KeyInfo i vs false :: acc) us = KeyInfo i vs false :: extend acc us.
Proof. induction us as [|u us IH]; intros acc; [reflexivity|]. unfold extend. cbn [fold_left add_uid ki_main]. apply IH. Qed.

Lemma nth_error_default (l : list text) n x : nth_error l n = Some x -> nth n l [] = x.
Proof. intros H. apply nth_error_nth. exact H. Qed.
Lemma given_if u : (if nonempty u then [u] else []) = given u. Proof. destruct u; reflexivity. Qed.
Lemma parse_line_record acc line acc' : parse_line (L "pub") (L "sub") acc line = Ok acc' ->
  match record_of line with
  | RPub i u => acc' = KeyInfo i (given u) true :: acc
  | RSub i u => acc' = KeyInfo i (given u) false :: acc
  | RUid u => acc' = add_uid acc u
  | ROther => acc' = acc
  end.
Proof.
  unfold parse_line, record_of. cbv zeta. replace (hd [] (split_on 58 line)) with (nth 0 (split_on 58 line) []) by (destruct (split_on 58 line); reflexivity).
  set (ps := split_on 58 line). destruct (text_eqb (nth 0 ps []) (L "pub")) eqn:E1; cbn [orb].
  - destruct (nth_error ps 3), (nth_error ps 2); try discriminate. destruct (py_int_ok _); [|discriminate].
    destruct (nth_error ps 9) as [u|] eqn:E9; [|discriminate]. destruct (nth_error ps 4) as [i|] eqn:E4; [|discriminate]. destruct (nth_error ps 5); [|discriminate].
    apply nth_error_default in E9, E4. rewrite E9, E4, given_if. congruence.
  - destruct (text_eqb (nth 0 ps []) (L "sub")) eqn:E2; cbn [orb].
    + destruct (nth_error ps 3), (nth_error ps 2); try discriminate. destruct (py_int_ok _); [|discriminate].
      destruct (nth_error ps 9) as [u|] eqn:E9; [|discriminate]. destruct (nth_error ps 4) as [i|] eqn:E4; [|discriminate]. destruct (nth_error ps 5); [|discriminate].
      apply nth_error_default in E9, E4. rewrite E9, E4, given_if. congruence.
    + destruct (text_eqb (nth 0 ps []) (L "uid")); [|congruence]. destruct (existsb ki_main acc); [|discriminate].
      destruct (nth_error ps 9) as [u|] eqn:E9; [|discriminate]. apply nth_error_default in E9. rewrite E9. congruence.
Qed.
Lemma parse_lines_infos lines : forall acc l, parse_lines (L "pub") (L "sub") acc lines = Ok l ->
  l = rev (extend acc (until_pub (map record_of lines))) ++ infos_of (map record_of lines).
Proof.
  induction lines as [|line lines IH]; intros acc l; cbn [parse_lines map until_pub infos_of].
  { intros [= <-]. rewrite app_nil_r. reflexivity. }
  destruct (parse_line _ _ acc line) as [acc'|] eqn:Ep; [|discriminate]. cbn [rbind]. intros H. apply IH in H.
  apply parse_line_record in Ep. destruct (record_of line) as [i u|i u|u|]; subst acc' l.
  - rewrite extend_main. cbn [rev]. rewrite <- app_assoc. reflexivity.
  - rewrite extend_sub. cbn [rev]. rewrite <- app_assoc. reflexivity.
  - reflexivity.
  - reflexivity.
Qed.
Lemma find_users kh rs : match find (fun k => text_eqb (ki_id k) kh) (infos_of rs) with Some k => ki_uids k | None => [] end = users_of kh rs.
Proof.
  induction rs as [|[i u|i u|u|] rs IH]; cbn [infos_of find users_of ki_id]; auto; destruct (text_eqb i kh); auto.
Qed.

(** ** Runs *)
Lemma quiet_only_gpg {A} (p : prog cop A) s s' r : quiet p -> arun p s = (s', r) -> only_gpg s s'.
Proof. intros Hq H. pose proof (quiet_logs p s Hq) as Hl. rewrite H in Hl. exact Hl. Qed.
Lemma tick_step {X} (o : cop X) s : (a_tick s <= a_tick (fst (astep o s)))%nat.
Proof. destruct o; cbn [astep fst a_tick]; try lia. destruct (gpg _ _ _ _). cbn. lia. Qed.
Lemma tick_run {A} (p : prog cop A) : forall s, (a_tick s <= a_tick (fst (arun p s)))%nat.
Proof.
  unfold arun. induction p as [a|e|X o k IH]; intros s; cbn [run fst]; auto.
  pose proof (tick_step o s) as Ht. destruct (astep o s) as [s1 x]. cbn [fst] in Ht. specialize (IH x s1). lia.
Qed.
Lemma tick_ok {A} (p : prog cop A) s s' r : arun p s = (s', r) -> (a_tick s <= a_tick s')%nat.
Proof. intros H. pose proof (tick_run p s) as Ht. rewrite H in Ht. exact Ht. Qed.

Definition grown (s s' : ast) : Prop := exists l, a_trace s' = l ++ a_trace s.
Lemma grown_refl s : grown s s. Proof. exists []. reflexivity. Qed.
Lemma grown_trans s1 s2 s3 : grown s1 s2 -> grown s2 s3 -> grown s1 s3.
Proof. intros [l1 H1] [l2 H2]. exists (l2 ++ l1). rewrite H2, H1, app_assoc. reflexivity. Qed.
Lemma ran_grown s s1 s2 s' g : grown s s1 -> ran s1 s2 g -> grown s2 s' -> ran s s' g.
Proof.
  intros [l1 H1] [l2 [H2 Hi]] [l3 H3]. exists (l3 ++ l2 ++ l1). split.
  - rewrite H3, H2, H1, !app_assoc. reflexivity.
  - apply in_or_app. right. apply in_or_app. left. exact Hi.
Qed.
Lemma only_grown s s' : only_gpg s s' -> grown s s'. Proof. intros [_ H]. exact H. Qed.
Lemma own_public_grown s s1 s2 s' kh key : grown s s1 -> own_public_key s1 s2 kh key -> grown s2 s' -> own_public_key s s' kh key.
Proof. intros H1 [home [argv [r [H2 H3]]]] H4. exists home, argv, r. split; [eapply ran_grown; eauto|exact H3]. Qed.

(** every recorded date is past *)
Definition past (s : ast) : Prop := forall n e, In e (msg_entries (alog s n)) -> me_date e < clock (a_tick s).
Section Clock.
Hypothesis clock_up : forall i j, (i < j)%nat -> clock i < clock j.
Hypothesis clock_pos : 0 < clock 0%nat.
Lemma clock_le i j : (i <= j)%nat -> clock i <= clock j.
Proof. intros H. destruct (Nat.eq_dec i j) as [->|Hn]; [lia|]. pose proof (clock_up i j). lia. Qed.
Lemma clock_gt0 i : 0 < clock i.
Proof. pose proof (clock_le 0 i). lia. Qed.
Lemma past_mono s s' : a_logs s' = a_logs s -> (a_tick s <= a_tick s')%nat -> past s -> past s'.
Proof. intros Hl Ht Hp n e Hi. unfold alog in Hi. rewrite Hl in Hi. specialize (Hp n e Hi). pose proof (clock_le _ _ Ht). lia. Qed.

(** one address *)
Definition import_one (g : bingpg) (acct kh pref a : text) : prog cop unit :=
  now <- perform CTime ;;
  kd <- get_public_keydata g kh false ;;
  update_from_msg (peerstate_chain acct a) [] now (Some pref) (Some kd) (Some kh).
Definition known_as (s : ast) (acct u pref kh : text) (date : Z) (key : bytes) : Prop :=
  ac_of (msg_entries (alog s (peerstate_chain acct u))) = Some (MsgEntry [] date pref key kh).
Lemma import_one_ok g acct kh pref a s s' : past s -> arun (import_one g acct kh pref a) s = (s', Ok tt) ->
  past s' /\ grown s s' /\ (forall n, n <> peerstate_chain acct a -> alog s' n = alog s n) /\
  exists key, own_public_key s s' kh key /\ (key <> [] -> known_as s' acct a pref kh (clock (a_tick s)) key) /\
    (key = [] -> ac_of (msg_entries (alog s' (peerstate_chain acct a))) = ac_of (msg_entries (alog s (peerstate_chain acct a)))).
Proof.
  intros Hp H. pose proof (tick_ok _ _ _ _ H) as Htick. unfold import_one in H.
  apply arun_bind_ok in H as [s1 [now [H1 H]]]. unfold arun in H1. cbn [perform run astep] in H1. injection H1 as <- <-.
  set (s1 := AState _ _ _ _ _) in H.
  apply arun_bind_ok in H as [s2 [kd [H1 H]]]. pose proof (tick_ok _ _ _ _ H1) as Ht2. apply get_public_keydata_ok in H1 as [O1 [_ O3]].
  specialize (O3 eq_refl). set (ch := peerstate_chain acct a) in *. set (now := clock (a_tick s)) in *.
  assert (Hl2 : forall n, alog s2 n = alog s n) by (intros n; rewrite (only_gpg_log _ _ n O1); reflexivity).
  assert (G02 : grown s s2) by (destruct O1 as [_ [l O1]]; exists l; exact O1).
  rewrite update_from_msg_run in H. rewrite Hl2 in H.
  assert (Hpk : own_public_key s s2 kh kd) by exact O3.
  assert (Hold : forall e, In e (msg_entries (alog s ch)) -> me_date e < now) by (intros e; apply Hp).
  assert (Hts : autocrypt_timestamp (alog s ch) < now).
  { rewrite ts_of_log. unfold ts_of. destruct (ac_of _) as [e|] eqn:Ee; [apply ac_of_In in Ee; apply Hold, Ee|apply clock_gt0]. }
  assert (Hls : last_seen (alog s ch) < now).
  { rewrite seen_of_log. unfold seen_of. destruct (hd_error _) as [e|] eqn:Ee; [apply hd_error_In in Ee; apply Hold, Ee|apply clock_gt0]. }
  assert (Hdec : msg_decide (alog s ch) [] now (Some pref) (Some kd) (Some kh) =
     if nonempty kd then match mk_msg_entry [] now (Some pref) kd kh with Ok e => Ok (Some e) | Err x => Err x end
     else Ok (Some (EMsg (MsgEntry [] now (L "nopreference") [] [])))).
  { unfold msg_decide. destruct (Z.ltb_spec now (autocrypt_timestamp (alog s ch))); [lia|]. cbv zeta.
    destruct (match get_message_entry (alog s ch) [] with Some _ => _ | None => _ end) eqn:Edup.
    { exfalso. destruct (get_message_entry (alog s ch) []) as [e|] eqn:Eg; [|discriminate].
      apply get_message_In in Eg. destruct Eg as [Hi _]. specialize (Hold e Hi).
      do 3 (apply andb_prop in Edup; destruct Edup as [Edup _]). apply Z.eqb_eq in Edup. lia. }
    destruct (nonempty kd); cbn [negb]; [reflexivity|]. destruct (Z.ltb_spec (last_seen (alog s ch)) now); [reflexivity|lia]. }
  rewrite Hdec in H. clear Hdec.
  assert (Happ : forall e, app_log s2 ch (EMsg e) = s' -> me_date e = now -> past s' /\ grown s s' /\ own_public_key s s' kh kd /\ (forall n, n <> ch -> alog s' n = alog s n) /\
     msg_entries (alog s' ch) = e :: msg_entries (alog s ch)).
  { intros e <- He. split; [|split; [|split; [|split]]].
    - assert (Hlt : clock (a_tick s) < clock (a_tick (app_log s2 ch (EMsg e)))) by (apply clock_up; cbn; unfold s1 in Ht2; cbn in Ht2; lia).
      intros n e'. rewrite alog_app. destruct (text_eqb_spec n ch) as [->|Hn]; rewrite ?Hl2.
      + cbn [msg_entries bl_entry]. intros [<-|Hi]; [rewrite He; exact Hlt|]. specialize (Hold e' Hi). unfold now in *. lia.
      + intros Hi. specialize (Hp n e' Hi). lia.
    - exact G02.
    - exact Hpk.
    - intros n Hn. rewrite alog_app. apply text_eqb_neq in Hn. rewrite Hn. apply Hl2.
    - rewrite alog_app, text_eqb_refl, Hl2. reflexivity. }
  destruct (nonempty kd) eqn:Hk.
  - unfold mk_msg_entry in H. destruct (valid_pref pref); [|discriminate]. cbn [decided] in H. injection H as H.
    destruct (Happ _ H eq_refl) as [P1 [P2 [P3 [P4 P5]]]]. split; [exact P1|]. split; [exact P2|]. split; [exact P4|].
    exists kd. split; [exact P3|]. split; [|intros ->; discriminate]. intros _. unfold known_as. fold ch. rewrite P5. unfold ac_of. cbn [find me_keydata]. rewrite Hk. reflexivity.
  - cbn [decided] in H. injection H as H. destruct kd; [|discriminate].
    destruct (Happ _ H eq_refl) as [P1 [P2 [P3 [P4 P5]]]]. split; [exact P1|]. split; [exact P2|]. split; [exact P4|].
    exists []. split; [exact P3|]. split; [congruence|]. intros _. rewrite P5. reflexivity.
Qed.

Lemma import_all_ok g acct kh pref us : forall s s' l, past s -> arun (mapM (import_one g acct kh pref) us) s = (s', Ok l) ->
  past s' /\ grown s s' /\ (a_tick s <= a_tick s')%nat /\
  (forall n, (forall u, In u us -> n <> peerstate_chain acct u) -> alog s' n = alog s n) /\
  (forall u, In u us -> exists key i, own_public_key s s' kh key /\ (a_tick s <= i < a_tick s')%nat /\ (key <> [] -> known_as s' acct u pref kh (clock i) key)).
Proof.
  induction us as [|u us IH]; intros s s' l Hp H.
  { apply arun_ret_ok in H as [-> _]. split; [exact Hp|]. split; [apply grown_refl|]. split; [lia|]. split; [reflexivity|intros u []]. }
  pose proof (tick_ok _ _ _ _ H) as Htick. cbn [mapM] in H. apply arun_bind_ok in H as [s1 [[] [H1 H]]]. apply arun_bind_ok in H as [s2 [l' [H2 H]]]. apply arun_ret_ok in H as [-> _].
  pose proof (tick_ok _ _ _ _ H1) as Ht1. pose proof (tick_ok _ _ _ _ H2) as Ht2.
  assert (Ht1' : (S (a_tick s) <= a_tick s1)%nat).
  { unfold import_one in H1. apply arun_bind_ok in H1 as [sx [now [H0 H1]]]. unfold arun in H0. cbn [perform run astep] in H0. injection H0 as <- <-. apply tick_ok in H1. exact H1. }
  destruct (import_one_ok g acct kh pref u s s1 Hp H1) as [P1 [G1 [F1 [key [O1 [K1 _]]]]]].
  destruct (IH _ _ _ P1 H2) as [P2 [G2 [_ [F2 K2]]]].
  split; [exact P2|]. split; [eapply grown_trans; eauto|]. split; [exact Htick|]. split.
  - intros n Hn. rewrite F2, F1; [reflexivity|apply Hn; left; reflexivity|intros v Hv; apply Hn; right; exact Hv].
  - intros v Hv. destruct (in_dec (list_eq_dec N.eq_dec) (peerstate_chain acct v) (map (peerstate_chain acct) us)) as [Hin|Hout].
    + apply in_map_iff in Hin. destruct Hin as [w [Hw Hin]]. destruct (K2 w Hin) as [k [i [O2 [Hi K]]]]. exists k, i.
      split; [eapply own_public_grown; [exact G1|exact O2|apply grown_refl]|]. split; [lia|]. unfold known_as in *. rewrite <- Hw. exact K.
    + destruct Hv as [<-|Hv]; [|exfalso; apply Hout; apply in_map; exact Hv].
      exists key, (a_tick s). split; [eapply own_public_grown; [apply grown_refl|exact O1|exact G2]|]. split; [lia|].
      intros Hk. specialize (K1 Hk). unfold known_as in *. rewrite F2; [exact K1|]. intros w Hw He. apply Hout. rewrite He. apply in_map. exact Hw.
Qed.

Lemma list_public_ok g kh s s' l : arun (list_public_keyinfos g kh) s = (s', Ok l) ->
  only_gpg s s' /\ listed_users s s' kh (match find (fun k => text_eqb (ki_id k) kh) l with Some k => ki_uids k | None => [] end).
Proof.
  unfold list_public_keyinfos, parse_list. intros H. apply arun_bind_ok in H as [s1 [[out err] [H1 H]]]. apply arun_lift_ok in H as [-> H].
  apply gpg_outerr_ok in H1 as [H1 [H3 [r [_ H4]]]]. split; [exact H1|]. apply parse_lines_infos in H.
  eexists _, _, r, out. split; [eexists; split; [exact H3|left; reflexivity]|]. split; [|split; [exact H4|]].
  - unfold full_argv. exists ([gp_path g; L "--batch"] ++ homedirflags g ++ [L "--skip-verify"]). rewrite <- !app_assoc. reflexivity.
  - rewrite H. unfold extend. cbn [fold_left rev app]. unfold extend.
    assert (Hz : forall us, fold_left add_uid us [] = []) by (induction us; auto). rewrite Hz. cbn [rev app]. apply find_users.
Qed.

Lemma c49_run n addr kd pref s s' r : past s -> arun (import_keydata_as_autocrypt n addr kd pref) s = (s', Ok r) ->
  ir_pref r = pref /\ own_public_key s s' (ir_kh r) (ir_keydata r) /\
  (match addr with
   | Some x => ir_addrs r = [norm x]
   | None => exists kh us, listed_users s s' kh us /\ ir_addrs r = map norm us
   end) /\
  (forall ch, (forall u, In u (ir_addrs r) -> ch <> peerstate_chain n u) -> alog s' ch = alog s ch) /\
  (forall u, In u (ir_addrs r) -> exists key i, own_public_key s s' (ir_kh r) key /\ (a_tick s <= i < a_tick s')%nat /\
     (key <> [] -> known_as s' n u pref (ir_kh r) (clock i) key)).
Proof.
  intros Hp H. unfold import_keydata_as_autocrypt in H.
  apply arun_bind_ok in H as [s0 [g [H1 H]]]. apply get_bingpg_ok in H1 as ->.
  apply arun_bind_ok in H as [s1 [kh0 [H1 H]]]. pose proof (tick_ok _ _ _ _ H1) as T1. apply quiet_only_gpg in H1 as O1; [|auto with quiet].
  apply arun_bind_ok in H as [s2 [us [H2 H]]]. pose proof (tick_ok _ _ _ _ H2) as T2.
  assert (O2 : only_gpg s1 s2 /\ match addr with Some x => us = [norm x] | None => exists vs, listed_users s1 s2 kh0 vs /\ us = map norm vs end).
  { destruct addr as [x|].
    - apply arun_ret_ok in H2 as [-> ->]. split; [apply only_gpg_refl|reflexivity].
    - apply arun_bind_ok in H2 as [s2' [l [H2 H3]]]. apply arun_ret_ok in H3 as [-> ->]. apply list_public_ok in H2 as [O2 L2]. split; [exact O2|].
      eexists. split; [exact L2|]. destruct (find _ l); reflexivity. }
  destruct O2 as [O2 A2].
  apply arun_bind_ok in H as [s3 [kh [H3 H]]]. pose proof (tick_ok _ _ _ _ H3) as T3. apply quiet_only_gpg in H3 as O3; [|auto with quiet].
  apply arun_bind_ok in H as [s4 [ul [H4 H]]]. pose proof (tick_ok _ _ _ _ H4) as T4.
  assert (O13 : only_gpg s s3) by (eapply only_gpg_trans; [exact O1|eapply only_gpg_trans; eauto]).
  assert (P3 : past s3) by (eapply past_mono; [apply O13|lia|exact Hp]).
  destruct (import_all_ok g n kh pref us s3 s4 ul P3 H4) as [P4 [G4 [_ [F4 K4]]]].
  apply arun_bind_ok in H as [s5 [kd' [H5 H]]]. pose proof (tick_ok _ _ _ _ H5) as T5. apply get_public_keydata_ok in H5 as [O5 [_ Q5]]. specialize (Q5 eq_refl).
  apply arun_ret_ok in H as [-> ->]. cbn [ir_pref ir_kh ir_keydata ir_addrs].
  assert (G3 : grown s s3) by (apply only_grown, O13).
  assert (G5 : grown s4 s5) by (apply only_grown, O5).
  split; [reflexivity|]. split; [eapply own_public_grown; [eapply grown_trans; [exact G3|exact G4]|exact Q5|apply grown_refl]|].
  split; [|split].
  - destruct addr as [x|]; [exact A2|]. destruct A2 as [vs [[home [argv [rg [out [L1 L2]]]]] A2]]. exists kh0, vs. split; [|exact A2].
    exists home, argv, rg, out. split; [|exact L2]. eapply ran_grown; [apply only_grown, O1|exact L1|].
    eapply grown_trans; [apply only_grown, O3|eapply grown_trans; eauto].
  - intros ch Hch. rewrite (only_gpg_log _ _ ch O5), F4 by exact Hch. apply only_gpg_log, O13.
  - intros u Hu. destruct (K4 u Hu) as [key [i [K1 [K2 K3]]]]. exists key, i. split; [eapply own_public_grown; eauto|]. split; [lia|].
    unfold known_as in *. rewrite (only_gpg_log _ _ _ O5). exact K3.
Qed.

Lemma reachable_past s : reachable s -> past s.
Proof.
  intros Hr n e Hi. apply In_msg_entries in Hi. destruct Hi as [t Hi]. destruct (reachable_dates s Hr _ _ Hi) as [j [Hj Hje]].
  specialize (clock_up j (a_tick s) Hj). cbn in Hje. lia.
Qed.
Lemma view_known ch l date pref key kh : ac_of (msg_entries l) = Some (MsgEntry [] date pref key kh) -> direct_key (view_of ch l) date pref key kh.
Proof.
  intros H. split; [exact H|]. intros Hk. unfold view_of. cbn.
  assert (Hd : has_direct_key l = true) by (unfold has_direct_key; rewrite ac_of_log, H; cbn; apply nonempty_true, Hk).
  unfold public_keydata, public_keyhandle, peer_prefer_encrypt, entry_for_encryption. rewrite Hd, ac_of_log, H. auto.
Qed.
End Clock.

Lemma c49_import s n addr kd pref r : (forall i j, (i < j)%nat -> clock i < clock j) -> 0 < clock 0%nat ->
  reachable s -> let c := AImport n addr kd pref in answer s c = Ok (OImport r) ->
  ir_pref r = pref /\ own_public_key s (after s c) (ir_kh r) (ir_keydata r) /\
  (match addr with
   | Some x => ir_addrs r = [norm x]
   | None => exists kh us, listed_users s (after s c) kh us /\ ir_addrs r = map norm us
   end) /\
  (forall u, In u (ir_addrs r) -> exists v key i, peer_of (after s c) n u = Some v /\ own_public_key s (after s c) (ir_kh r) key /\
     (a_tick s <= i < a_tick (after s c))%nat /\ (key <> [] -> direct_key v (clock i) pref key (ir_kh r))).
Proof.
  intros Hup H0 Hr c Ha. pose proof (reachable_WF s Hr) as Hw. pose proof (WF_after s c Hw) as Hw'.
  assert (He : exists_acct s n).
  { destruct (exists_acct_dec s n) as [He|He]; [exact He|]. exfalso. unfold answer, c in Ha. cbn [exec] in Ha.
    rewrite arun_with_account_none in Ha by exact He. discriminate. }
  assert (He' : exists_acct (after s c) n) by (apply after_exists; auto).
  unfold answer, after in *. unfold c in *. cbn [exec] in *. rewrite arun_with_account in * by auto. rewrite arun_bind in *.
  destruct (arun (import_keydata_as_autocrypt n addr kd pref) s) as [s' [r'|e]] eqn:Er; [|discriminate]. cbn [fst snd arun run] in *. injection Ha as ->.
  destruct (c49_run Hup H0 n addr kd pref s s' r (reachable_past Hup s Hr) Er) as [H1 [H2 [H3 [H4 H5]]]].
  split; [exact H1|]. split; [exact H2|]. split; [exact H3|]. intros u Hu. destruct (H5 u Hu) as [key [i [K1 [K2 K3]]]].
  eexists _, key, i. split; [apply peer_view_log; auto|]. split; [exact K1|]. split; [exact K2|]. intros Hk. apply view_known, K3, Hk.
Qed.
Lemma c49_others s n addr kd pref r : (forall i j, (i < j)%nat -> clock i < clock j) -> 0 < clock 0%nat ->
  reachable s -> let c := AImport n addr kd pref in answer s c = Ok (OImport r) ->
  accounts_of (after s c) = accounts_of s /\ own_of (after s c) n = own_of s n /\ (forall b, b <> n -> same_account s (after s c) b) /\
  (forall x, ~ In (norm x) (map norm (ir_addrs r)) -> peer_of (after s c) n x = peer_of s n x) /\
  (forall x, verif_of (after s c) n x = verif_of s n x).
Proof.
  intros Hup H0 Hr c Ha. pose proof (reachable_WF s Hr) as Hw. pose proof (WF_after s c Hw) as Hw'.
  assert (He : exists_acct s n).
  { destruct (exists_acct_dec s n) as [He|He]; [exact He|]. exfalso. unfold answer, c in Ha. cbn [exec] in Ha.
    rewrite arun_with_account_none in Ha by exact He. discriminate. }
  assert (Hall : forall b, b <> n -> same_account s (after s c) b) by (intros b Hb; apply (names_same s c n b); auto; discriminate).
  assert (He' : exists_acct (after s c) n) by (apply after_exists; auto).
  pose proof Ha as Ha'. unfold answer, after in *. unfold c in *. cbn [exec] in *. rewrite arun_with_account in * by auto. rewrite arun_bind in *.
  destruct (arun (import_keydata_as_autocrypt n addr kd pref) s) as [s' [r'|e]] eqn:Er; [|discriminate]. cbn [fst snd arun run] in *. injection Ha as ->.
  destruct (c49_run Hup H0 n addr kd pref s s' r (reachable_past Hup s Hr) Er) as [H1 [H2 [H3 [H4 H5]]]].
  assert (Hown : forall b, alog s' (own_chain b) = alog s (own_chain b)) by (intros b; apply H4; intros u _ Hu; eapply own_peer; eauto).
  assert (Hoob : forall b, alog s' (oob_chain b) = alog s (oob_chain b)) by (intros b; apply H4; intros u _ Hu; eapply oob_peer; eauto).
  split; [apply accounts_frame; auto; intros b; rewrite Hown; tauto|].
  split; [apply own_of_frame; auto|]. split; [exact Hall|]. split.
  - intros x Hx. rewrite !peer_view_log by auto. rewrite H4; [reflexivity|]. intros u Hu Hc. apply Hx. unfold peerstate_chain in Hc.
    apply peer_chain_inj in Hc; [|eapply exists_isalnum; eauto..]. destruct Hc as [_ Hc]. apply in_map_iff. exists u. split; [symmetry; exact Hc|exact Hu].
  - intros x. apply verif_of_frame; auto.
Qed.

End ImportProofs.
