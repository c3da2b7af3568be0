(** Mails on their way from one machine to another (C95). *)
From Verif Require Import Base PyStr Utf8 Base64 Env Prog Chain Gpg Mime States Recommendation Account Cmdline Commands Bot Fs Api Steps StepFacts Exec ApiScope Spec Obs
  PeerSpec RecSpec RecProofs HeaderSpec HeaderProofs OutSpec OutProofs OutProofs2 AcctProofs CmdSpec CmdProofs CmdProofs2 EmailText EmailSpec EmailProofs EmailUse WireSpec.

Section WireProofs.
Context {E : Env} {EL : EmailLib} {Sh : Shell}.

Lemma lit t : forallb (fun c => N.ltb c 128) t = true -> Forall (fun c => c < 128)%N t.
Proof. intros H. rewrite forallb_forall in H. apply Forall_forall. intros c Hc. apply N.ltb_lt, H, Hc. Qed.
Lemma ascii_utf8 t : Forall (fun c => c < 128)%N t -> to_utf8 t = Some t.
Proof.
  induction 1 as [|c t Hc _ IH]; [reflexivity|]. cbn [to_utf8]. rewrite IH. unfold utf8_cp.
  destruct (N.leb_spec c 127); [reflexivity|lia].
Qed.
Lemma ascii_from t : Forall (fun c => c < 128)%N t -> from_bytes t = t.
Proof. intros H. unfold from_bytes. rewrite <- (map_id t) at 2. apply map_ext_in. intros c Hc. rewrite Forall_forall in H. apply H in Hc. apply N.ltb_lt in Hc. rewrite Hc. reflexivity. Qed.
Lemma ascii_read t : Forall (fun c => c < 128)%N t -> mail_read t = mail_of (length t) (keep_lines t).
Proof. intros H. unfold mail_read. rewrite ascii_from by exact H. reflexivity. Qed.

(** ** Reading the content type *)
Lemma split_on_cut c (l r : text) : ~ In c l -> split_on c (l ++ c :: r) = l :: split_on c r.
Proof.
  induction l as [|x l IH]; intros H.
  - cbn [app split_on]. rewrite N.eqb_refl. reflexivity.
  - cbn [app split_on]. destruct (N.eqb_spec x c) as [->|]; [destruct H; left; reflexivity|]. rewrite IH by (intros Hi; apply H; right; exact Hi). reflexivity.
Qed.
Definition sealed_heads (b : text) (hs : list (text * text)) := (L "Content-Type", sealed_type b) :: hs.
Lemma sealed_get b hs p : get_content_type (Msg (sealed_heads b hs) p) = L "multipart/encrypted".
Proof.
  unfold get_content_type. change (hget (Msg (sealed_heads b hs) p) (L "content-type")) with (Some (sealed_type b)). cbv iota beta.
  change (sealed_type b) with (L "multipart/encrypted" ++ 59%N :: (L " protocol=""application/pgp-encrypted""" ++ L "; boundary=""" ++ b ++ L """")).
  rewrite split_on_cut; [reflexivity|]. vm_compute. intuition discriminate.
Qed.
Lemma boundary_chars b : python_boundary b -> Forall (fun c => 48 <= c <= 61)%N b.
Proof.
  intros [ds [-> H]]. apply Forall_app. split; [apply Forall_forall; intros c Hc; apply repeat_spec in Hc; subst; lia|].
  apply Forall_app. split; [eapply Forall_impl; [|exact H]; intros c Hc; cbn beta in Hc; lia|repeat constructor; lia].
Qed.
Lemma sealed_plain b : python_boundary b -> plain_field false (L "Content-Type", sealed_type b).
Proof.
  intros H. apply boundary_chars in H. split; [discriminate|]. split; [apply Forall_forall; intros c Hc; revert Hc; vm_compute; intuition (subst; discriminate)|].
  exists (sealed_type b), []. cbn [fst snd]. split; [reflexivity|]. split; [split|].
  - unfold sealed_type. repeat (apply Forall_app; split); try (apply Forall_forall; intros c Hc; revert Hc; vm_compute; intuition (subst; discriminate)).
    eapply Forall_impl; [|exact H]. intros c Hc. cbn beta in Hc. lia.
  - intros l' He. unfold sealed_type in He. rewrite !app_assoc in He. change (L """") with [34%N] in He. apply app_inj_tail in He as [_ He]. discriminate.
  - split; [intros l' He; discriminate|]. split; [discriminate|constructor].
Qed.
Lemma sealed_parts b hs : python_wire -> python_boundary b -> parts_type (sealed_heads b hs) b.
Proof.
  intros [_ [_ [_ W]]] H. split; [exists (L "encrypted"); split; [apply sealed_get|discriminate]|]. split; [exists (sealed_type b); split; [reflexivity|apply (W b H)]|].
  split; [destruct H as [ds [-> _]]; discriminate|]. apply boundary_chars in H. eapply Forall_impl; [|exact H]. intros c Hc. cbn beta in Hc. lia.
Qed.

(** ** The parts of an encrypted mail *)
Definition version_part : msg := Msg [(L "Content-Type", L "application/pgp-encrypted")] (PStr (L "version: 1")).
Definition cipher_part (enc : bytes) : msg := Msg [(L "Content-Type", L "application/octet-stream")] (PStr enc).
Definition cipher_head : text := L "Content-Type: application/octet-stream" ++ [10; 10]%N.
Definition version_text : text := L "Content-Type: application/pgp-encrypted" ++ [10; 10]%N ++ L "version: 1".
Lemma version_written q : mail_text q true version_part = Ok version_text.
Proof. destruct q; vm_compute; reflexivity. Qed.
Lemma no_surrogates t : Forall (fun c => c < 128)%N t -> has_surrogates t = false.
Proof.
  intros H. unfold has_surrogates. destruct (existsb _ t) eqn:Es; [|reflexivity]. apply existsb_exists in Es as [c [Hi Hc]]. rewrite Forall_forall in H. specialize (H c Hi). cbn beta in H.
  apply andb_true_iff in Hc as [C1 C2]. apply N.leb_le in C1. lia.
Qed.
Lemma armored_ascii enc : armored enc -> Forall (fun c => c < 128)%N enc.
Proof. intros [H _]. eapply Forall_impl; [|exact H]. intros c [Hc _]. exact Hc. Qed.
Lemma armored_no_cr enc : armored enc -> ~ In 13%N enc.
Proof. intros [H _] Hi. rewrite Forall_forall in H. destruct (H _ Hi) as [_ Hn]. exact (Hn eq_refl). Qed.
Lemma cipher_written enc : armored enc ->
  mail_text false true (Msg [(L "Content-Type", L "application/octet-stream")] (PBytes enc)) = Ok (cipher_head ++ enc) /\
  mail_text false true (cipher_part enc) = Ok (cipher_head ++ enc).
Proof.
  intros H. unfold cipher_part. cbn [mail_text].
  change (kind_of (Msg [(L "Content-Type", L "application/octet-stream")] (PBytes enc))) with KText.
  change (kind_of (Msg [(L "Content-Type", L "application/octet-stream")] (PStr enc))) with KText. cbv iota.
  unfold written_text. rewrite ascii_from by (apply armored_ascii, H). rewrite no_surrogates by (apply armored_ascii, H). rewrite norm_nl_id by (apply armored_no_cr, H). split; reflexivity.
Qed.
Lemma no_delimiter b l : python_boundary b -> delimiter b l -> exists r, l = L "--=" ++ r.
Proof.
  intros [ds [-> _]] [w [[-> | ->] _]].
  - exists (repeat 61%N 14 ++ ds ++ [61; 61]%N ++ w). cbn [repeat app]. rewrite <- !app_assoc. reflexivity.
  - exists (repeat 61%N 14 ++ ds ++ [61; 61]%N ++ L "--" ++ w). cbn [repeat app]. rewrite <- !app_assoc. reflexivity.
Qed.
Ltac one_head := constructor; [|constructor]; split; [discriminate|]; split; [apply Forall_forall; intros c Hc; revert Hc; vm_compute; intuition (subst; discriminate)|];
  eexists; exists []; split; [reflexivity|]; split;
  [split; [apply Forall_forall; intros c Hc; revert Hc; vm_compute; intuition (subst; discriminate)|intros l' He; apply (f_equal (@rev N)) in He; rewrite rev_app_distr in He; discriminate]|];
  split; [intros l' He; discriminate|]; split; [discriminate|constructor].
Lemma version_ordinary : ordinary false version_part.
Proof.
  cbn [ordinary version_part]. split; [one_head|]. split; [intros r; split; vm_compute; discriminate|].
  split; [|split; [vm_compute; intuition discriminate|discriminate]]. cbv iota. apply (Forall_impl (P := fun c => c < 128)%N); [intros c Hc; left; lia|apply lit; vm_compute; reflexivity].
Qed.
Lemma cipher_ordinary enc : armored enc -> ordinary false (cipher_part enc).
Proof.
  intros H. cbn [ordinary cipher_part]. split; [one_head|]. split; [intros r; split; vm_compute; discriminate|].
  split; [eapply Forall_impl; [|exact (armored_ascii enc H)]; intros c Hc; cbn beta in Hc; left; lia|]. split; [apply armored_no_cr, H|discriminate].
Qed.
Lemma version_apart b : python_boundary b -> apart false b version_part.
Proof.
  intros Hb t l Ht Hl Hd. change (negb false) with true in Ht. rewrite version_written in Ht. injection Ht as <-. apply (no_delimiter b l Hb) in Hd as [r Hr]. vm_compute in Hl.
  repeat (destruct Hl as [<-|Hl]; [discriminate|]). destruct Hl.
Qed.
Lemma cipher_apart b enc : python_boundary b -> armored enc -> apart false b (cipher_part enc).
Proof.
  intros Hb Ha t l Ht Hl Hd. change (negb false) with true in Ht. rewrite (proj2 (cipher_written enc Ha)) in Ht. assert (Et : cipher_head ++ enc = t) by congruence. subst t. apply (no_delimiter b l Hb) in Hd as [r Hr].
  assert (Hc : split_on 10 (cipher_head ++ enc) = L "Content-Type: application/octet-stream" :: [] :: split_on 10 enc).
  { refine (split_on_cut 10 (L "Content-Type: application/octet-stream") (10%N :: enc) _). vm_compute. intuition discriminate. }
  unfold line_in in Hl. rewrite Hc in Hl. destruct Hl as [<-|[<-|Hl]]; [discriminate|discriminate|]. exact (proj2 Ha l r Hl Hr).
Qed.

(** ** The whole mail *)
Lemma heads_ascii q w h : Forall (plain_field q) h -> (q = false -> w = true) -> Forall (fun c => c < 128)%N (heads w h).
Proof.
  intros H Hq. unfold heads. apply Forall_app. split; [|repeat constructor]. induction H as [|[n v] h Hf _ IH]; [constructor|]. cbn [map concat]. apply Forall_app. split; [|exact IH].
  rewrite (written_plain q) by assumption. cbn [fst snd]. destruct Hf as [_ [Hn [l [ls [Hv [[H1 _] [_ [_ H4]]]]]]]]. cbn [fst snd] in *. rewrite Hv.
  apply Forall_app. split; [eapply Forall_impl; [|exact Hn]; intros c Hc; cbn beta in Hc; lia|]. apply Forall_app. split; [repeat constructor|].
  apply Forall_app. split; [|repeat constructor]. apply join_forall; [repeat constructor|]. constructor; [eapply Forall_impl; [|exact H1]; intros c Hc; cbn beta in Hc; lia|].
  eapply Forall_impl; [|exact H4]. intros x [[Hx _] _]. eapply Forall_impl; [|exact Hx]. intros c Hc. cbn beta in Hc. lia.
Qed.
Definition arrived (b : text) (hs : list (text * text)) (enc : bytes) : msg := Msg (sealed_heads b hs) (PParts [version_part; cipher_part enc]).
Definition not_content_type (f : text * text) : Prop := lower (fst f) <> L "content-type".
Theorem sealed_arrives hs enc : python_wire -> Forall not_content_type hs -> Forall (plain_field false) hs -> armored enc ->
  exists i b, python_boundary b /\ on_the_wire (Msg ((L "Content-Type", encrypted_ctype) :: hs) (pgp_body enc)) i /\
    forall m, received i m -> m = arrived b hs enc.
Proof.
  intros W Hn Hp Ha. pose proof W as [W1 [W2 [W3 W4]]]. set (em := Msg _ _). set (ts := [version_text; cipher_head ++ enc]). set (b := new_boundary ts).
  pose proof (W2 ts : python_boundary b) as Hb. set (t := heads true (sealed_heads b hs) ++ in_parts b ts).
  assert (Hset : set_boundary b ((L "Content-Type", encrypted_ctype) :: hs) = sealed_heads b hs).
  { change (set_boundary b ((L "Content-Type", encrypted_ctype) :: hs)) with ((L "Content-Type", with_boundary encrypted_ctype b) ::
      map (fun f => if text_eqb (lower (fst f)) (L "content-type") then (fst f, with_boundary encrypted_ctype b) else f) hs).
    rewrite (proj1 (W4 b Hb)). unfold sealed_heads. f_equal. rewrite <- (map_id hs) at 2. apply map_ext_in. intros f Hf. rewrite Forall_forall in Hn.
    destruct (text_eqb (lower (fst f)) _) eqn:Ef; [|reflexivity]. apply text_eqb_eq in Ef. destruct (Hn f Hf Ef). }
  assert (Hs : mail_string em = Ok t).
  { unfold mail_string, em. cbn [mail_text pgp_body]. set (m0 := Msg _ _).
    assert (Hk : kind_of m0 = KMulti false None).
    { unfold kind_of. change (get_content_type m0) with (L "multipart/encrypted"). change (hget m0 (L "content-type")) with (Some encrypted_ctype). cbv beta iota zeta. rewrite W3. reflexivity. }
    rewrite Hk. change (true || false) with true. fold version_part. 
    change (rall (mail_text false true) [version_part; Msg [(L "Content-Type", L "application/octet-stream")] (PBytes enc)])
      with (rbind (mail_text false true version_part) (fun y => rbind (rbind (mail_text false true (Msg [(L "Content-Type", L "application/octet-stream")] (PBytes enc)))
        (fun y => Ok [y])) (fun ys => Ok (y :: ys)))).
    rewrite version_written, (proj1 (cipher_written enc Ha)). cbn [rbind]. fold ts. cbv zeta. change (Ok ((concat (map (write_field true) (set_boundary b ((L "Content-Type", encrypted_ctype) :: hs))) ++ [10%N]) ++ in_parts b ts) = Ok t). rewrite Hset. reflexivity. }
  assert (Hh : Forall (plain_field false) (sealed_heads b hs)) by (constructor; [apply sealed_plain, Hb|exact Hp]).
  assert (Hasc : Forall (fun c => c < 128)%N t).
  { apply Forall_app. split; [apply (heads_ascii false); [exact Hh|reflexivity]|]. unfold in_parts.
    assert (Hbo : Forall (fun c => c < 128)%N b) by (eapply Forall_impl; [|exact (boundary_chars b Hb)]; intros c Hc; cbn beta in Hc; lia).
    assert (Hj : Forall (fun c => c < 128)%N (join ([10%N] ++ L "--" ++ b ++ [10%N]) ts)).
    { apply join_forall; [repeat (apply Forall_app; split); try exact Hbo; apply lit; reflexivity|]. unfold ts. constructor; [apply lit; vm_compute; reflexivity|].
    constructor; [|constructor]. apply Forall_app. split; [apply lit; vm_compute; reflexivity|apply armored_ascii, Ha]. }
    set (js := join _ ts) in *. clearbody js. repeat (apply Forall_app; split); try exact Hbo; try exact Hj; apply lit; reflexivity. }
  assert (Hts : Forall2 (part_back false b) [version_part; cipher_part enc] ts).
  { assert (Hpb : forall p x, ordinary false p -> apart false b p -> mail_text false true p = Ok x -> part_back false b p x).
    { intros p x Ho Hap Hx. destruct (part_comes_back false b p (ordinary_back false p Ho) Ho Hap) as [x' Hx']. assert (x' = x) by (destruct Hx' as [Hx' _]; specialize (Hx' true (fun _ => eq_refl)); congruence). subst. exact Hx'. }
    constructor; [apply Hpb; [apply version_ordinary|apply version_apart, Hb|apply version_written]|]. constructor; [|constructor].
    apply Hpb; [apply cipher_ordinary, Ha|apply cipher_apart; assumption|apply cipher_written, Ha]. }
  exists t, b. split; [exact Hb|]. split; [exists t; split; [rewrite W1; exact Hs|apply ascii_utf8, Hasc]|].
  intros m [->| ->].
  - rewrite ascii_read by exact Hasc. rewrite <- (app_nil_r t) at 2. apply (parts_read false (sealed_heads b hs) b [version_part; cipher_part enc] ts (length t) [] Hh (sealed_parts b hs W Hb)); [discriminate|exact Hts|exact (le_n _)].
  - rewrite ascii_read by (apply Forall_app; split; [exact Hasc|repeat constructor]).
    apply (parts_read false (sealed_heads b hs) b [version_part; cipher_part enc] ts _ [10%N] Hh (sealed_parts b hs W Hb)); [discriminate|exact Hts|]. rewrite (app_length t [10%N]). exact (Nat.le_add_r _ _).
Qed.

(** ** What it means *)
Lemma arrived_encrypted b hs enc : is_encrypted (arrived b hs enc) = Ok true.
Proof. unfold is_encrypted, arrived. rewrite sealed_get. reflexivity. Qed.
Lemma arrived_decrypt a b hs enc :
  decrypt_mime a (arrived b hs enc) = decrypt_mime a (Msg ((L "Content-Type", encrypted_ctype) :: hs) (pgp_body enc)).
Proof. unfold decrypt_mime. rewrite arrived_encrypted. reflexivity. Qed.
Lemma arrived_incoming a b hs enc x y :
  process_incoming a (arrived b hs enc) x y = process_incoming a (Msg ((L "Content-Type", encrypted_ctype) :: hs) (pgp_body enc)) x y.
Proof. unfold process_incoming. rewrite arrived_decrypt, arrived_encrypted. reflexivity. Qed.
Lemma arrived_same b hs enc : means_the_same (Msg ((L "Content-Type", encrypted_ctype) :: hs) (pgp_body enc)) (arrived b hs enc).
Proof.
  split; [|split].
  - intros s a. unfold answer, after. cbn [exec]. rewrite !with_account_bind. destruct (arun (get_account a true) s) as [s1 [n|e]]; [|auto]. rewrite arrived_decrypt. auto.
  - intros s a x y. unfold answer, after. cbn [exec]. rewrite !with_account_bind. destruct (arun (get_account a true) s) as [s1 [n|e]]; [|auto]. rewrite arrived_incoming. auto.
  - intros s n x y. unfold answer, after. cbn [exec]. unfold cli_process_incoming. rewrite !arun_bind.
    change (get_matching_account (arrived b hs enc)) with (get_matching_account (Msg ((L "Content-Type", encrypted_ctype) :: hs) (pgp_body enc))).
    destruct (arun _ s) as [s1 [a|e]]; [|auto]. rewrite !arun_bind, arrived_incoming. auto.
Qed.

(** ** Headers with keys *)
Lemma own_field_plain addr key pref v : Forall (fun c => 33 <= c <= 126)%N (norm addr) -> pref = L "nopreference" \/ pref = L "mutual" ->
  make_ac_header_value addr key pref = Ok v -> plain_field false (L "Autocrypt", v).
Proof.
  intros Ha Hpr Hm. assert (Hne : key <> []) by (intros ->; discriminate Hm).
  destruct (make_any addr key pref Hne) as [lines [H1 [H2 [H3 _]]]]. rewrite H1 in Hm. injection Hm as <-.
  assert (Hr : Forall (Forall (fun c => 43 <= c <= 122)%N) lines).
  { apply Forall_forall. intros l Hi. apply Forall_forall. intros c Hc. pose proof (b64_range key) as Hk. rewrite Forall_forall in Hk. apply Hk. rewrite <- H2. apply in_concat. eauto. }
  split; [discriminate|]. split; [apply Forall_forall; intros c Hc; revert Hc; vm_compute; intuition (subst; discriminate)|].
  exists (L "addr=" ++ norm addr ++ L "; " ++ pref_part pref ++ L "keydata="), (map (fun l => L "  " ++ l) lines). cbn [fst snd].
  split; [|split; [|split; [|split]]].
  - destruct lines as [|l lines].
    + exfalso. cbn [concat] in H2. symmetry in H2. apply b64encode_nil in H2. contradiction.
    + cbn [map]. set (ks := map _ lines). change (join [10%N] ((L "addr=" ++ norm addr ++ L "; " ++ pref_part pref ++ L "keydata=") :: (L "  " ++ l) :: ks))
        with ((L "addr=" ++ norm addr ++ L "; " ++ pref_part pref ++ L "keydata=") ++ [10%N] ++ join [10%N] ((L "  " ++ l) :: ks)).
      rewrite <- !app_assoc. reflexivity.
  - split.
    + repeat (apply Forall_app; split); try (apply Forall_forall; intros c Hc; revert Hc; vm_compute; intuition (subst; discriminate)).
      * eapply Forall_impl; [|exact Ha]; intros c Hc; cbn beta in Hc; lia.
      * destruct Hpr as [-> | ->]; apply Forall_forall; intros c Hc; revert Hc; vm_compute; intuition (subst; discriminate).
    + intros l' He. change (L "keydata=") with (L "keydata" ++ [61%N]) in He. rewrite !app_assoc in He. apply app_inj_tail in He as [_ He]. discriminate.
  - intros l' He. discriminate.
  - discriminate.
  - apply Forall_map, Forall_forall. intros l Hi. rewrite Forall_forall in Hr, H3. specialize (Hr l Hi). destruct (H3 l Hi) as [Hl1 Hl2].
    split; [split|split].
    + apply Forall_app. split; [apply Forall_forall; intros c Hc; revert Hc; vm_compute; intuition (subst; discriminate)|]. eapply Forall_impl; [|exact Hr]. intros c Hc. cbn beta in Hc. lia.
    + intros l' He. destruct (exists_last Hl1) as [l0 [c Hc]]. rewrite Hc, app_assoc in He. apply app_inj_tail in He as [_ ->]. rewrite Hc in Hr. apply Forall_app in Hr as [_ Hr]. inversion Hr; subst. lia.
    + exists (32%N :: l). reflexivity.
    + discriminate.
Qed.

(** ** Encrypted mails *)
Lemma outer_no_type m : Forall not_content_type (outer_headers m).
Proof.
  apply Forall_forall. intros f Hf. unfold outer_headers in Hf. apply filter_In in Hf as [_ Hf]. apply negb_true_iff in Hf. intros He. unfold named in Hf. rewrite He in Hf. discriminate.
Qed.
Theorem c95_encrypt : forall s a m to em khs, python_wire -> reachable s -> answer s (AEncrypt a m to) = Ok (OEncrypted em khs) ->
  Forall (plain_field false) (outer_headers m) ->
  (forall khs own data enc, gpg_encrypted s (after s (AEncrypt a m to)) khs own data enc -> armored enc) ->
  exists i, on_the_wire em i /\ forall m', received i m' -> means_the_same em m'.
Proof.
  intros s a m to em khs W Hr H Hp Hg. destruct (c34_encrypt s a m to em khs Hr H) as [_ [Hh [_ [c [own [gs [clear [data [enc [_ [Hb [He _]]]]]]]]]]]].
  destruct em as [eh eb]. cbn [m_headers m_body] in *. subst eh eb.
  destruct (sealed_arrives (outer_headers m) enc W (outer_no_type m) Hp (Hg _ _ _ _ He)) as [i [b [_ [Hi Hm]]]]. exists i. split; [exact Hi|].
  intros m' Hm'. rewrite (Hm m' Hm'). apply arrived_same.
Qed.
Theorem c95_outgoing : forall s a m o, python_wire -> reachable s -> answer s (AOutgoing a m) = Ok (OOutgoing o) ->
  is_encrypted m = Ok false -> is_encrypted (out_msg o) = Ok true ->
  Forall (plain_field false) (outer_headers m) -> Forall (fun c => 33 <= c <= 126)%N (norm (from_addr m)) ->
  (forall khs own data enc, gpg_encrypted s (after s (AOutgoing a m)) khs own data enc -> armored enc) ->
  exists i, on_the_wire (out_msg o) i /\ forall m', received i m' -> means_the_same (out_msg o) m'.
Proof.
  intros s a m o W Hr H H1 H2 Hp Hf Hg. pose proof (c34_outgoing s a m o Hr H H1 H2) as Hh.
  destruct (c33 s a m o Hr H H1 H2) as [c [own [khs [data [enc [_ [He [Hb _]]]]]]]].
  set (hs := without (L "ENCRYPT") (outer_headers m) ++ match out_added o with Some v => [(L "Autocrypt", v)] | None => [] end) in Hh.
  assert (Hn : Forall not_content_type hs).
  { apply Forall_app. split.
    - pose proof (outer_no_type m) as Ho. rewrite Forall_forall in *. intros f Hi. apply filter_In in Hi as [Hi _]. apply Ho, Hi.
    - destruct (out_added o); [|constructor]. constructor; [|constructor]. vm_compute. discriminate. }
  assert (Hpl : Forall (plain_field false) hs).
  { apply Forall_app. split.
    - rewrite Forall_forall in *. intros f Hi. apply filter_In in Hi as [Hi _]. apply Hp, Hi.
    - destruct (out_added o) as [v|] eqn:Ev; [|constructor]. constructor; [|constructor].
      destruct (hget_all m (L "Autocrypt")) as [|x l] eqn:Ea.
      + destruct (c32_added s a m o Hr H Ea) as [v' [c' [kh [key [K1 [K2 [K3 [K4 _]]]]]]]].
        assert (Hi : In v (hget_all (out_msg o) (L "Autocrypt"))).
        { unfold hget_all. rewrite Hh. apply in_map_iff. exists (L "Autocrypt", v). split; [reflexivity|]. apply filter_In. split; [|reflexivity]. right. apply in_app_iff. right. left. reflexivity. }
        rewrite K1 in Hi. destruct Hi as [<-|[]]. eapply own_field_plain; [exact Hf| |exact K4].
        apply valid_pref_spec. apply (wf_pref s a c' (reachable_WF s Hr)). rewrite own_of_spec in K2 by exact (reachable_WF s Hr).
        destruct (config_of s a); [|discriminate]. destruct (keygen_of s a); [|discriminate]. congruence.
      + destruct (c32_kept s a m o Hr H) as [_ Hx]; [rewrite Ea; discriminate|]. congruence. }
  destruct (out_msg o) as [eh eb]. cbn [m_headers m_body] in Hh, Hb. subst eh eb.
  destruct (sealed_arrives hs enc W Hn Hpl (Hg _ _ _ _ He)) as [i [b [_ [Hi Hm]]]]. exists i. split; [exact Hi|].
  intros m' Hm'. rewrite (Hm m' Hm'). apply arrived_same.
Qed.

(** ** Other mails *)
Lemma ended_same m z : ordinary false m -> means_the_same m (with_end m z).
Proof.
  intros Ho. destruct m as [h [|t| |ps]]; cbn [with_end]; try (split; [|split]; intros; split; reflexivity). cbn [ordinary] in Ho. destruct Ho as [_ [Ht _]].
  assert (He : forall p, is_encrypted (Msg h p) = Ok false).
  { intros p. unfold is_encrypted. change (get_content_type (Msg h p)) with (get_content_type (Msg h PNone)). destruct (text_eqb _ _) eqn:Et; [|reflexivity].
    apply text_eqb_eq in Et. destruct (Ht (L "encrypted")) as [Hx _]. contradiction. }
  assert (Hd : forall a p, decrypt_mime a (Msg h p) = Raise AssertionError) by (intros a p; unfold decrypt_mime; rewrite He; reflexivity).
  assert (Hi : forall a x y, process_incoming a (Msg h (PStr (t ++ z))) x y = process_incoming a (Msg h (PStr t)) x y).
  { intros a x y. unfold process_incoming. rewrite !He, !Hd. reflexivity. }
  split; [|split].
  - intros s a. unfold answer, after. cbn [exec]. rewrite !with_account_bind. destruct (arun (get_account a true) s) as [s1 [n|e]]; [|auto]. rewrite !Hd. auto.
  - intros s a x y. unfold answer, after. cbn [exec]. rewrite !with_account_bind. destruct (arun (get_account a true) s) as [s1 [n|e]]; [|auto]. rewrite Hi. auto.
  - intros s n x y. unfold answer, after. cbn [exec]. unfold cli_process_incoming. rewrite !arun_bind.
    change (get_matching_account (Msg h (PStr (t ++ z)))) with (get_matching_account (Msg h (PStr t))).
    destruct (arun _ s) as [s1 [a|e]]; [|auto]. rewrite !arun_bind, Hi. auto.
Qed.
Theorem c95_clear : forall m, python_wire -> ordinary false m -> exists t : text, as_string m = Ok t /\
  (Forall (fun c => c < 128)%N t -> on_the_wire m t /\ mail_read t = m /\
     forall m', received t m' -> m_headers m' = m_headers m /\ means_the_same m m').
Proof.
  intros m [W _] Ho. destruct (ordinary_string m Ho) as [t [T1 [T2 T3]]]. exists t. rewrite W. split; [exact T1|]. intros Ha.
  assert (R1 : mail_read t = m) by (rewrite ascii_read by exact Ha; exact T2).
  assert (R2 : mail_read (t ++ [10%N]) = with_end m [10%N]) by (rewrite ascii_read by (apply Forall_app; split; [exact Ha|repeat constructor]); exact T3).
  split; [exists t; split; [rewrite W; exact T1|apply ascii_utf8, Ha]|]. split; [exact R1|]. intros m' [->| ->].
  - rewrite R1. split; [reflexivity|]. split; [|split]; intros; split; reflexivity.
  - rewrite R2. split; [destruct m as [h [| | |]]; reflexivity|apply ended_same, Ho].
Qed.

(** ** From one account to another *)
Theorem c95_letter : forall s a m to em khs, python_mail -> python_wire -> reachable s -> answer s (AEncrypt a m to) = Ok (OEncrypted em khs) ->
  ordinary true (Msg (inner_headers m) (m_body m)) -> Forall (plain_field false) (outer_headers m) -> Forall writable_peer to ->
  (forall khs own data enc, gpg_encrypted s (after s (AEncrypt a m to)) khs own data enc -> armored enc) ->
  exists i, on_the_wire em i /\ forall em', received i em' ->
  forall s2 b dm infos, reachable s2 -> answer s2 (ADecrypt b em') = Ok (ODecrypted dm infos) ->
  (forall khs own data enc, gpg_encrypted s (after s (AEncrypt a m to)) khs own data enc -> forall home argv r,
     ran s2 (after s2 (ADecrypt b em')) (GCall home argv (Some enc) None) -> g_out (snd (gpg r argv (Some enc) None)) = data) ->
  exists gs, Forall2 (fun x => gossip_about s a (norm x)) to gs /\ m_body dm = m_body m /\
    m_headers dm = inner_headers m ++ map (fun v => (L "Autocrypt-Gossip", v)) (concat gs) ++ outer_headers m.
Proof.
  intros s a m to em khs P W Hr H Ho Hp Hw Hg. destruct (c95_encrypt s a m to em khs W Hr H Hp Hg) as [i [Hi Hm]]. exists i. split; [exact Hi|].
  intros em' He s2 b dm infos Hr2 Hd Hgpg. destruct (Hm em' He) as [Hs _]. destruct (Hs s2 b) as [S1 S2]. rewrite S1 in Hd. rewrite S2 in Hgpg.
  exact (c94_arrives s a m to em khs P Hr H Ho Hw s2 b dm infos Hr2 Hd Hgpg).
Qed.

(** what sendmail(8) is given *)
Theorem c95_sendmail : forall s args m p, outcome_of s (CmdSendmail args m) = Ok p ->
  exists m' path i, answer s (ACliOutgoing m) = Ok (OMsg m') /\ pr_started p = Some (path :: args, i) /\ on_the_wire m' i.
Proof.
  intros s args m p H. apply c62_sent in H as [_ [m' [t [i [path [H1 [H2 [H3 [_ [H4 _]]]]]]]]]]. exists m', path, i. split; [exact H1|]. split; [exact H4|].
  exists t. split; [exact H2|apply utf8_inverse, H3].
Qed.
(** for examples *)
Definition armored_check (enc : bytes) : bool :=
  forallb (fun c => N.ltb c 128 && negb (N.eqb c 13)) enc && forallb (fun l => negb (startswith (L "--=") l)) (split_on 10 enc).
Lemma armored_checked enc : armored_check enc = true -> armored enc.
Proof.
  intros H. apply andb_true_iff in H as [H1 H2]. rewrite forallb_forall in H1, H2. split.
  - apply Forall_forall. intros c Hc. specialize (H1 c Hc). apply andb_true_iff in H1 as [H1 H3]. apply N.ltb_lt in H1. apply negb_true_iff, N.eqb_neq in H3. auto.
  - intros l r Hl ->. specialize (H2 _ Hl). discriminate.
Qed.
End WireProofs.
