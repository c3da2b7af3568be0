(** Encrypted mails, written and read as Python does (C94). *)
From Verif Require Import Base PyStr Base64 Env Prog Chain Gpg Mime States Recommendation Account Cmdline Bot Fs Api Steps StepFacts Exec ApiScope Spec Obs
  PeerSpec HeaderSpec HeaderProofs OutSpec OutProofs OutProofs2 EmailText EmailSpec EmailProofs.

Section EmailUse.
Context {E : Env} {EL : EmailLib}.

Lemma same_text h h' : hget (Msg h' PNone) (L "content-type") = hget (Msg h PNone) (L "content-type") -> get_content_type (Msg h' PNone) = get_content_type (Msg h PNone).
Proof. intros H. unfold get_content_type. rewrite H. reflexivity. Qed.
Definition gossip_fields (vs : list text) : list (text * text) := map (fun v => (L "Autocrypt-Gossip", v)) vs.
Lemma gossip_ct h vs : hget (Msg (h ++ gossip_fields vs) PNone) (L "content-type") = hget (Msg h PNone) (L "content-type").
Proof.
  unfold hget. cbn [m_headers]. induction h as [|[n v] h IH].
  - cbn [app]. induction vs as [|v vs IH]; [reflexivity|]. exact IH.
  - cbn [app hget_list]. destruct (text_eqb (lower n) _); [reflexivity|exact IH].
Qed.
Lemma gossip_text h vs : text_type h -> text_type (h ++ gossip_fields vs).
Proof. intros H r. rewrite (same_text h) by apply gossip_ct. apply H. Qed.
Lemma gossip_ordinary q h b vs : Forall (plain_field q) (gossip_fields vs) -> ordinary q (Msg h b) -> ordinary q (Msg (h ++ gossip_fields vs) b).
Proof.
  cbn [ordinary]. intros Hg [H1 H2]. split; [apply Forall_app; auto|]. destruct b as [|t| |ps]; try contradiction.
  - destruct H2 as [H2 H3]. split; [apply gossip_text, H2|exact H3].
  - destruct H2 as [Hn [bd [[P1 [P2 P3]] H3]]]. split; [exact Hn|]. exists bd. split; [|exact H3]. split; [|split; [|exact P3]].
    + rewrite (same_text h) by apply gossip_ct. exact P1.
    + rewrite gossip_ct. exact P2.
Qed.

(** ** Key headers *)
Lemma b64char_range v : (43 <= b64char v <= 122 /\ b64char v <> 59 /\ b64char v <> 58)%N.
Proof.
  unfold b64char. destruct (N.ltb_spec v 26); [lia|]. destruct (N.ltb_spec v 52); [lia|]. destruct (N.ltb_spec v 62); [lia|]. destruct (N.eqb v 62); lia.
Qed.
Lemma b64_range b : Forall (fun c => 43 <= c <= 122)%N (b64encode b).
Proof.
  revert b. apply bytes3_ind; [constructor| | |]; intros; cbn [b64encode]; repeat constructor; try apply b64char_range; try (unfold b64pad; lia); assumption.
Qed.
Lemma ish_any b : Forall b64ish (b64encode b).
Proof.
  assert (H : forall v, b64ish (b64char v)).
  { intros v. destruct (b64char_range v) as [H1 [H2 H3]]. set (c := b64char v) in *. clearbody c. split; [|split; [|split; [exact H2|lia]]].
    - unfold is_space. rewrite !orb_false_iff, !andb_false_iff, !N.leb_gt, !N.eqb_neq. lia.
    - unfold is_ascii_cp. apply N.ltb_lt. lia. }
  revert b. apply bytes3_ind; [constructor| | |]; intros; cbn [b64encode]; repeat constructor; try apply H; try apply b64pad_ish; assumption.
Qed.
Lemma split_any key : exists lines,
  indented_split (b64encode key) = Ok (join [10%N] (map (fun l => L "  " ++ l) lines)) /\
  concat lines = b64encode key /\ Forall (fun l => l <> [] /\ (length l <= 78)%nat) lines /\
  Forall (Forall b64ish) lines /\
  (forall l c d r, lines = l ++ c :: d :: r -> length c = 78%nat).
Proof.
  pose proof (ish_any key) as Hish.
  destruct (chunks_ok 78 (b64encode key) ltac:(lia) (length (b64encode key)) (Nat.le_refl _)) as [C1 [C2 C3]].
  exists (chunks (length (b64encode key)) 78 (b64encode key)).
  assert (C4 : Forall (Forall b64ish) (chunks (length (b64encode key)) 78 (b64encode key))).
  { apply Forall_forall. intros c Hc. apply Forall_forall. intros x Hx. rewrite Forall_forall in Hish.
    apply Hish. eapply chunk_in; eassumption. }
  split; [|repeat split; assumption]. unfold indented_split.
  destruct (existsb (N.eqb 10) (b64encode key)) eqn:Ex.
  { exfalso. apply existsb_exists in Ex as [x [Hx1 Hx2]]. apply N.eqb_eq in Hx2. rewrite Forall_forall in Hish.
    destruct (Hish x Hx1) as [_ [_ [_ Hc]]]. congruence. }
  rewrite rstrip_lines; [reflexivity|].
  rewrite Forall_forall in *. intros c Hc. split; [apply (C2 c Hc) | apply C4, Hc].
Qed.

Lemma make_any addr key pref : key <> [] -> exists lines,
  make_ac_header_value addr key pref = Ok (L "addr=" ++ norm addr ++ L "; " ++ pref_part pref ++ L "keydata=" ++ [10%N] ++ join [10%N] (map (fun l => L "  " ++ l) lines)) /\
  concat lines = b64encode key /\ Forall (fun l => l <> [] /\ (length l <= 78)%nat) lines /\
  Forall (Forall b64ish) lines /\
  (forall l c d r, lines = l ++ c :: d :: r -> length c = 78%nat).
Proof.
  intros Hne. destruct (split_any key) as [lines [H1 H2]]. exists lines. split; [|exact H2].
  unfold make_ac_header_value. destruct (nonempty key) eqn:En; [|destruct key; [congruence | discriminate]].
  rewrite H1. cbn [rbind]. unfold pref_part. destruct (text_eqb pref (L "nopreference")); cbn [app join];
    rewrite <- !app_assoc; reflexivity.
Qed.
Lemma key_field_plain q n addr key h : short_addr (norm addr) -> n <> [] -> (length n <= 16)%nat -> Forall (fun c => 33 <= c <= 126 /\ c <> 58)%N n ->
  make_ac_header_value addr key (L "nopreference") = Ok h -> plain_field q (n, h).
Proof.
  intros [Ha Hl] Hn Hln Hnc Hm. assert (Hne : key <> []) by (intros ->; discriminate Hm).
  destruct (make_any addr key (L "nopreference") Hne) as [lines [H1 [H2 [H3 _]]]]. rewrite H1 in Hm. injection Hm as <-.
  assert (Hr : Forall (Forall (fun c => 43 <= c <= 122)%N) lines).
  { apply Forall_forall. intros l Hi. apply Forall_forall. intros c Hc. pose proof (b64_range key) as Hk. rewrite Forall_forall in Hk. apply Hk. rewrite <- H2. apply in_concat. eauto. }
  split; [exact Hn|]. split; [exact Hnc|]. exists (L "addr=" ++ norm addr ++ L "; keydata="), (map (fun l => L "  " ++ l) lines). cbn [fst snd].
  split; [|split; [|split; [|split]]].
  - destruct lines as [|l lines].
    + exfalso. cbn [concat] in H2. symmetry in H2. apply b64encode_nil in H2. contradiction.
    + cbn [map]. set (ks := map _ lines). change (join [10%N] ((L "addr=" ++ norm addr ++ L "; keydata=") :: (L "  " ++ l) :: ks))
        with ((L "addr=" ++ norm addr ++ L "; keydata=") ++ [10%N] ++ join [10%N] ((L "  " ++ l) :: ks)).
      change (pref_part (L "nopreference")) with (@nil N). rewrite <- !app_assoc. reflexivity.
  - split.
    + apply Forall_app. split; [apply Forall_forall; intros c Hc; revert Hc; vm_compute; intuition (subst; discriminate)|]. apply Forall_app.
      split; [eapply Forall_impl; [|exact Ha]; intros c Hc; cbn beta in Hc; lia|apply Forall_forall; intros c Hc; revert Hc; vm_compute; intuition (subst; discriminate)].
    + intros l' He. change (L "; keydata=") with (L "; keydata" ++ [61%N]) in He. rewrite !app_assoc in He. apply app_inj_tail in He as [_ He]. discriminate.
  - intros l' He. discriminate.
  - intros _. rewrite !app_length. change (length (L "addr=")) with 5%nat. change (length (L "; keydata=")) with 10%nat. lia.
  - apply Forall_map, Forall_forall. intros l Hi. rewrite Forall_forall in Hr, H3. specialize (Hr l Hi). destruct (H3 l Hi) as [Hl1 Hl2].
    split; [split|split].
    + apply Forall_app. split; [apply Forall_forall; intros c Hc; revert Hc; vm_compute; intuition (subst; discriminate)|]. eapply Forall_impl; [|exact Hr]. intros c Hc. cbn beta in Hc. lia.
    + intros l' He. destruct (exists_last Hl1) as [l0 [c Hc]]. rewrite Hc, app_assoc in He. apply app_inj_tail in He as [_ ->]. rewrite Hc in Hr. apply Forall_app in Hr as [_ Hr]. inversion Hr; subst. lia.
    + exists (32%N :: l). reflexivity.
    + intros _. right. exists 2%nat, l. split; [reflexivity|]. intros Hs. rewrite Forall_forall in Hr. specialize (Hr _ Hs). cbn beta in Hr. lia.
Qed.

(** ** Encryption and decryption *)
Lemma there_and_back s a m to em khs : reachable s -> answer s (AEncrypt a m to) = Ok (OEncrypted em khs) ->
  forall s2 b dm infos, reachable s2 -> answer s2 (ADecrypt b em) = Ok (ODecrypted dm infos) ->
  (forall khs own data enc, gpg_encrypted s (after s (AEncrypt a m to)) khs own data enc -> forall home argv r,
     ran s2 (after s2 (ADecrypt b em)) (GCall home argv (Some enc) None) -> g_out (snd (gpg r argv (Some enc) None)) = data) ->
  exists gs data, Forall2 (fun x => gossip_about s a (norm x)) to gs /\ flatten (Msg (inner_headers m ++ gossip_fields (concat gs)) (m_body m)) = Ok data /\
    m_body dm = m_body (parse_bytes data) /\ m_headers dm = m_headers (parse_bytes data) ++ outer_headers m.
Proof.
  intros Hr H s2 b dm infos Hr2 H2 Hgpg.
  destruct (c34_encrypt s a m to em khs Hr H) as [_ [Hh [_ [c [own [gs [clear [data [enc [I1 [I2 [I3 [I4 [I5 [I6 I7]]]]]]]]]]]]]]].
  destruct (c34_decrypt s2 b em dm infos Hr2 H2) as [_ [enc' [data' [D1 [D2 [D3 [home [argv [r [D4 [D5 D6]]]]]]]]]]].
  assert (enc' = enc) by (unfold cipher_of in D1; rewrite I2 in D1; cbn in D1; congruence). subst enc'.
  rewrite (Hgpg _ _ _ _ I3 _ _ r D4) in D6. subst data'. exists gs, data. split; [exact I7|]. split; [|split; [exact D2|]].
  - rewrite <- I4. f_equal. destruct clear as [ch cb]. cbn [m_body m_headers] in *. subst. reflexivity.
  - rewrite D3. f_equal. unfold outer_headers at 1. rewrite Hh. cbn [filter].
    change (negb (named mime_headers (L "Content-Type", encrypted_ctype))) with false. cbv iota.
    unfold outer_headers. rewrite filter_filter. apply filter_ext. intros x. destruct (negb _); reflexivity.
Qed.
Lemma gossip_plain s a to gs : Forall writable_peer to -> Forall2 (fun x => gossip_about s a (norm x)) to gs -> Forall (plain_field true) (gossip_fields (concat gs)).
Proof.
  intros Hw H. induction H as [|x g to gs Hx _ IH]; [constructor|]. inversion Hw as [|? ? W1 Hw']; subst. cbn [concat]. unfold gossip_fields. rewrite map_app. apply Forall_app. split; [|apply IH, Hw'].
  destruct Hx as [v [Hv [[_ ->]|[_ [h [Hm ->]]]]]]; [constructor|]. cbn [map]. constructor; [|constructor].
  eapply key_field_plain; [exact W1|discriminate|vm_compute; lia| |exact Hm]. apply Forall_forall. intros c Hc. revert Hc. vm_compute. intuition (subst; discriminate).
Qed.
Theorem c94_arrives : forall s a m to em khs, python_mail -> reachable s -> answer s (AEncrypt a m to) = Ok (OEncrypted em khs) ->
  ordinary true (Msg (inner_headers m) (m_body m)) -> Forall writable_peer to ->
  forall s2 b dm infos, reachable s2 -> answer s2 (ADecrypt b em) = Ok (ODecrypted dm infos) ->
  (forall khs own data enc, gpg_encrypted s (after s (AEncrypt a m to)) khs own data enc -> forall home argv r,
     ran s2 (after s2 (ADecrypt b em)) (GCall home argv (Some enc) None) -> g_out (snd (gpg r argv (Some enc) None)) = data) ->
  exists gs, Forall2 (fun x => gossip_about s a (norm x)) to gs /\ m_body dm = m_body m /\
    m_headers dm = inner_headers m ++ map (fun v => (L "Autocrypt-Gossip", v)) (concat gs) ++ outer_headers m.
Proof.
  intros s a m to em khs [P1 P2] Hr H Ho Hw s2 b dm infos Hr2 H2 Hg. destruct (there_and_back s a m to em khs Hr H s2 b dm infos Hr2 H2 Hg) as [gs [data [G1 [G2 [G3 G4]]]]].
  exists gs. split; [exact G1|]. apply gossip_ordinary with (vs := concat gs) in Ho; [|exact (gossip_plain s a to gs Hw G1)].
  destruct (ordinary_bytes _ Ho) as [d [D1 D2]]. rewrite P1, D1 in G2. injection G2 as ->. rewrite P2, D2 in G3, G4. cbn [m_body m_headers] in *. split; [exact G3|]. rewrite G4, <- app_assoc. reflexivity.
Qed.
Theorem c94_text : forall s a m to em khs t, python_mail -> reachable s -> answer s (AEncrypt a m to) = Ok (OEncrypted em khs) ->
  m_body m = PStr t -> Forall (plain_field true) (inner_headers m) -> text_type (inner_headers m) -> Forall writable_peer to ->
  forall s2 b dm infos, reachable s2 -> answer s2 (ADecrypt b em) = Ok (ODecrypted dm infos) ->
  (forall khs own data enc, gpg_encrypted s (after s (AEncrypt a m to)) khs own data enc -> forall home argv r,
     ran s2 (after s2 (ADecrypt b em)) (GCall home argv (Some enc) None) -> g_out (snd (gpg r argv (Some enc) None)) = data) ->
  m_body dm = PStr t <-> ~ In 13%N t /\ (forall l, line_in t l -> ~ from_line l).
Proof.
  intros s a m to em khs t [P1 P2] Hr H Hb Hf Ht Hw s2 b dm infos Hr2 H2 Hg. destruct (there_and_back s a m to em khs Hr H s2 b dm infos Hr2 H2 Hg) as [gs [data [G1 [G2 [G3 G4]]]]].
  rewrite Hb, P1 in G2. apply text_back in G2 as [Hs [t' [T1 T2]]].
  - rewrite P2, T1 in G3. cbn [m_body] in G3. rewrite G3. split; [intros [= He]; apply T2 in He as [_ [He1 He2]]; split; [exact He1|exact (He2 eq_refl)]|intros [He1 He2]; f_equal; apply T2; split; [exact Hs|split; [exact He1|intros _; exact He2]]].
  - apply Forall_app. split; [exact Hf|exact (gossip_plain s a to gs Hw G1)].
  - apply gossip_text, Ht.
Qed.
(** text that is not ASCII *)
Theorem c94_not_ascii : forall s a m to t em khs, python_mail -> reachable s -> m_body m = PStr t -> text_type (inner_headers m) ->
  answer s (AEncrypt a m to) = Ok (OEncrypted em khs) -> Forall sendable t.
Proof.
  intros s a m to t em khs [P1 P2] Hr Hb Ht H. 
  destruct (c34_encrypt s a m to em khs Hr H) as [_ [Hh [_ [c [own [gs [clear [data [enc [I1 [I2 [I3 [I4 [I5 [I6 I7]]]]]]]]]]]]]]].
  rewrite P1 in I4. destruct clear as [ch cb]. cbn [m_body m_headers] in I5, I6. subst ch cb. rewrite Hb in I4. eapply text_sendable; [|exact I4]. apply gossip_text, Ht.
Qed.
End EmailUse.
