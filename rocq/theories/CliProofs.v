(** Key ids, truncated strings, log sections, mime trees. *)
From Verif Require Import Base PyStr Env Prog Chain Gpg Mime States Recommendation Account Cmdline Bot Fs Api Spec PeerSpec OutSpec MimeTree CliSpec.

(** ** Decimal numbers *)
Lemma decimal_app a b : decimal (a ++ b) = fold_left (fun n d => (10 * n + (d - 48))%N) b (decimal a).
Proof. apply fold_left_app. Qed.
Lemma dec_aux_written fuel n acc : (n < 10 ^ N.of_nat fuel)%N -> (0 < fuel)%nat ->
  exists t, dec_aux fuel n acc = t ++ acc /\ written n t.
Proof.
  revert n acc; induction fuel as [|f IH]; intros n acc Hn Hf; [lia|]. cbn [dec_aux]. cbv zeta.
  pose proof (N.div_mod n 10 ltac:(lia)) as Hdm. pose proof (N.mod_lt n 10 ltac:(lia)) as Hm.
  assert (Hdiv : forall x : N, (x < 10 * 10 ^ N.of_nat f)%N -> (x / 10 < 10 ^ N.of_nat f)%N).
  { intros x Hx. apply N.div_lt_upper_bound; [lia|exact Hx]. }
  specialize (Hdiv n). rewrite Nat2N.inj_succ, N.pow_succ_r' in Hn. specialize (Hdiv Hn).
  remember (n / 10)%N as q. remember (n mod 10)%N as r. clear Heqq Heqr.
  assert (Hd : digit (48 + r)) by (unfold digit; lia).
  destruct (N.eqb_spec q 0) as [H0|H0].
  - exists [(48 + r)%N]. split; [reflexivity|]. split; [|split; [|split]].
    + constructor; [exact Hd|constructor].
    + unfold decimal. cbn [fold_left]. lia.
    + discriminate.
    + intros Hne. cbn [hd_error]. intros Hx. assert (48 + r = 48)%N by congruence. lia.
  - assert (Hf' : (0 < f)%nat). { destruct f; [|lia]. cbn in Hdiv. lia. }
    destruct (IH q ((48 + r)%N :: acc) Hdiv Hf') as [t [Ht [W1 [W2 [W3 W4]]]]].
    exists (t ++ [(48 + r)%N]). split; [rewrite Ht, <- app_assoc; reflexivity|]. split; [|split; [|split]].
    + apply Forall_app. split; [exact W1|]. constructor; [exact Hd|constructor].
    + rewrite decimal_app, W2. cbn [fold_left]. lia.
    + destruct t; discriminate.
    + intros _. specialize (W4 H0). destruct t; [congruence|]. exact W4.
Qed.
Lemma dec_N_written n : written n (dec_N n).
Proof.
  destruct (dec_aux_written (S (N.to_nat (N.size n))) n []) as [t [Ht Hw]].
  - rewrite Nat2N.inj_succ, N2Nat.id, N.pow_succ_r'. pose proof (N.size_gt n) as H.
    assert (2 ^ N.size n <= 10 ^ N.size n)%N by (apply N.pow_le_mono_l; lia). lia.
  - lia.
  - unfold dec_N. rewrite Ht, app_nil_r. exact Hw.
Qed.
(** the value determines the number of digits *)
Lemma decimal_bounds t : Forall digit t -> (decimal t < 10 ^ N.of_nat (length t))%N.
Proof.
  induction t as [|d t IH] using rev_ind; intros H; [cbn; lia|].
  apply Forall_app in H as [H1 H2]. inversion H2 as [|? ? Hd _]; subst. unfold digit in Hd.
  rewrite decimal_app, app_length, Nat.add_1_r, Nat2N.inj_succ, N.pow_succ_r'. cbn [fold_left]. specialize (IH H1). lia.
Qed.
Lemma decimal_lower t : Forall digit t -> t <> [] -> hd_error t <> Some 48%N -> (10 ^ N.of_nat (length t - 1) <= decimal t)%N.
Proof.
  induction t as [|d t IH] using rev_ind; intros H Hn Hh; [congruence|].
  apply Forall_app in H as [H1 H2]. inversion H2 as [|? ? Hd _]; subst. unfold digit in Hd.
  rewrite decimal_app, app_length, Nat.add_1_r. cbn [fold_left]. replace (S (length t) - 1) with (length t) by lia.
  destruct t as [|c t].
  - cbn in *. assert (d <> 48%N) by congruence. lia.
  - assert (H0 : (10 ^ N.of_nat (length (c :: t) - 1) <= decimal (c :: t))%N) by (apply IH; [exact H1|discriminate|exact Hh]).
    replace (N.of_nat (length (c :: t))) with (N.succ (N.of_nat (length (c :: t) - 1))) by (cbn [length]; lia).
    rewrite N.pow_succ_r'. lia.
Qed.
Lemma written_length n t : written n t -> n <> 0%N -> forall k, (length t <= k <-> (n < 10 ^ N.of_nat k)%N).
Proof.
  intros [W1 [W2 [W3 W4]]] Hn k. pose proof (decimal_bounds t W1) as B1.
  pose proof (decimal_lower t W1 W3 (W4 Hn)) as B2. rewrite W2 in *. split.
  - intros Hk. eapply N.lt_le_trans; [exact B1|]. apply N.pow_le_mono_r; lia.
  - intros Hk. destruct (le_lt_dec (length t) k) as [|Hl]; [assumption|]. exfalso.
    assert (10 ^ N.of_nat k <= 10 ^ N.of_nat (length t - 1))%N by (apply N.pow_le_mono_r; lia). lia.
Qed.

(** ** C57 *)
Lemma trunc_spec s maxlen : (20 <= maxlen)%nat ->
  (length s <= maxlen -> trunc_string s maxlen = s) /\
  (maxlen < length s -> exists kept dropped n,
     s = kept ++ dropped /\ length kept = maxlen - 20 /\ written (N.of_nat (length dropped)) n /\
     trunc_string s maxlen = kept ++ L "[truncated " ++ n ++ L " chars]" /\
     (length (trunc_string s maxlen) <= maxlen <-> length dropped < 100)).
Proof.
  intros Hm. unfold trunc_string. split; intros H.
  - apply Nat.leb_le in H. rewrite H. reflexivity.
  - apply Nat.leb_gt in H as H'. rewrite H'.
    exists (firstn (maxlen - 20) s), (skipn (maxlen - 20) s), (dec_N (N.of_nat (length (skipn (maxlen - 20) s)))).
    assert (Hl : length (skipn (maxlen - 20) s) = length s - maxlen + 20) by (rewrite skipn_length; lia).
    assert (Hk : py_take (Z.of_nat maxlen - 20) s = firstn (maxlen - 20) s).
    { unfold py_take. destruct (Z.ltb_spec (Z.of_nat maxlen - 20) 0); [lia|]. f_equal. lia. }
    assert (Hf : length (firstn (maxlen - 20) s) = maxlen - 20) by (rewrite firstn_length; lia).
    split; [symmetry; apply firstn_skipn|]. split; [exact Hf|]. split; [apply dec_N_written|]. split.
    + rewrite Hk, Hl. reflexivity.
    + rewrite Hk, <- Hl, !app_length, Hf.
      change (length (L "[truncated ")) with 11. change (length (L " chars]")) with 7.
      pose proof (written_length _ _ (dec_N_written (N.of_nat (length (skipn (maxlen - 20) s)))) ltac:(lia) 2) as Hw.
      change (10 ^ N.of_nat 2)%N with 100%N in Hw. lia.
Qed.

(** ** C58 *)
Lemma indent_spaces n : indent_text n = repeat 32%N (2 * n).
Proof.
  unfold indent_text. induction n as [|n IH]; [reflexivity|]. cbn [repeat concat]. rewrite IH.
  replace (2 * S n) with (S (S (2 * n))) by lia. reflexivity.
Qed.
Lemma indented_less n l : indented (S n) l -> indented n l.
Proof.
  intros [r ->]. exists (32%N :: 32%N :: r). replace (2 * S n) with (2 * n + 2) by lia.
  rewrite repeat_app, <- app_assoc. reflexivity.
Qed.
Lemma appended_refl s : appended s s.
Proof. split; [reflexivity|]. exists []. rewrite app_nil_r. auto. Qed.
Lemma appended_trans s1 s2 s3 : appended s1 s2 -> appended s2 s3 -> appended s1 s3.
Proof.
  intros [H1 [n1 [H2 H3]]] [H4 [n2 [H5 H6]]]. split; [congruence|]. exists (n1 ++ n2). rewrite H5, H2, app_assoc.
  split; [reflexivity|]. apply Forall_app. split; [exact H3|]. rewrite <- H1. exact H6.
Qed.
Lemma log_call_appended s m : appended s (log_call s m).
Proof.
  unfold log_call. cbv zeta. split; [reflexivity|]. eexists. split; [reflexivity|].
  apply Forall_forall. intros l Hl. apply in_map_iff in Hl as [x [<- _]]. exists x. rewrite indent_spaces. reflexivity.
Qed.
Lemma log_section_appended title raising tb body s :
  (forall s0, appended s0 (fst (body s0))) -> appended s (fst (log_section title raising tb body s)).
Proof.
  intros Hb. unfold log_section. cbv zeta.
  set (s1 := match sl_lines s with [] => s | _ => log_call s [] end).
  assert (H1 : appended s s1) by (unfold s1; destruct (sl_lines s); [apply appended_refl|apply log_call_appended]).
  set (s2 := log_call (log_call s1 title) []).
  assert (H2 : appended s s2).
  { eapply appended_trans; [exact H1|]. eapply appended_trans; apply log_call_appended. }
  specialize (Hb (SLog (sl_lines s2) (S (sl_indent s2)))).
  destruct (body (SLog (sl_lines s2) (S (sl_indent s2)))) as [s3 r]. cbn [fst] in Hb.
  assert (H3 : appended s (SLog (sl_lines s3) (pred (sl_indent s3)))).
  { eapply appended_trans; [exact H2|]. destruct Hb as [Hb1 [new [Hb2 Hb3]]]. cbn [sl_indent sl_lines] in *.
    split; [cbn; rewrite Hb1; reflexivity|]. exists new. split; [exact Hb2|]. eapply Forall_impl; [|exact Hb3]. intros l. apply indented_less. }
  destruct r as [u|e]; [|destruct raising]; cbn [fst]; [| exact H3 |].
  - eapply appended_trans; [exact H3|apply log_call_appended].
  - eapply appended_trans; [exact H3|]. eapply appended_trans; apply log_call_appended.
Qed.
Lemma run_script_appended tb p : forall s, appended s (fst (run_script tb p s)).
Proof.
  induction p as [|t k IH|e|title raising body IHb k IHk]; intros s; cbn [run_script].
  - apply appended_refl.
  - eapply appended_trans; [apply log_call_appended|apply IH].
  - apply appended_refl.
  - pose proof (log_section_appended title raising tb (run_script tb body) s IHb) as H.
    destruct (log_section title raising tb (run_script tb body) s) as [s' [u|e]]; [|exact H].
    eapply appended_trans; [exact H|apply IHk].
Qed.
Lemma run_script_safe tb p : safe p = true -> forall s, snd (run_script tb p s) = Ok tt.
Proof.
  induction p as [|t k IH|e|title raising body IHb k IHk]; intros Hs s; cbn [run_script safe] in *; auto; try discriminate.
  apply andb_prop in Hs as [Hs1 Hs2].
  assert (H : snd (log_section title raising tb (run_script tb body) s) = Ok tt).
  { unfold log_section. cbv zeta. set (s0 := SLog _ (S _)).
    destruct raising; cbn [negb orb] in Hs1.
    - specialize (IHb Hs1 s0). destruct (run_script tb body s0) as [s3 r]. cbn [snd] in IHb. subst r. reflexivity.
    - destruct (run_script tb body s0) as [s3 [u|e]]; reflexivity. }
  destruct (log_section title raising tb (run_script tb body) s) as [s' r]. cbn [snd] in H. subst r. auto.
Qed.

(** ** C60 *)
Section MsgInd.
  Variable P : msg -> Prop.
  Hypothesis H : forall h b, (forall l, b = PParts l -> Forall P l) -> P (Msg h b).
  Fixpoint msg_ind' (m : msg) : P m.
  Proof.
    destruct m as [h b]. apply H. destruct b as [|t|t|l0]; intros l Hl; try discriminate. injection Hl as <-.
    induction l0 as [|x l IH]; constructor; [apply msg_ind'|exact IH].
  Defined.
End MsgInd.

Definition ends_ok (t : text) : Prop := exists t' c, t = t' ++ [c] /\ is_space c = false.
Lemma rstrip_nl t : ends_ok t -> rstrip (t ++ [10%N]) = t.
Proof.
  intros [t' [c [-> Hc]]]. rewrite rstrip_app_space by reflexivity. unfold rstrip.
  rewrite rev_app_distr. cbn [rev app]. cbn [lstrip]. rewrite Hc. cbn [rev]. rewrite rev_involutive. reflexivity.
Qed.
Lemma ends_ok_app a b : ends_ok b -> ends_ok (a ++ b).
Proof. intros [t [c [-> H]]]. exists (a ++ t), c. rewrite app_assoc. auto. Qed.
Lemma join_app sep l1 l2 : l1 <> [] -> l2 <> [] -> join sep (l1 ++ l2) = join sep l1 ++ sep ++ join sep l2.
Proof.
  intros H1 H2. induction l1 as [|x l1 IH]; [congruence|]. destruct l1 as [|y l1].
  - cbn [app join]. destruct l2; [congruence|]. reflexivity.
  - change ((x :: y :: l1) ++ l2) with (x :: (y :: l1) ++ l2).
    change (join sep (x :: (y :: l1) ++ l2)) with (x ++ sep ++ join sep ((y :: l1) ++ l2)).
    rewrite IH by discriminate. cbn [join]. rewrite <- !app_assoc. reflexivity.
Qed.
Lemma split_join c l : l <> [] -> Forall (fun p => ~ In c p) l -> split_on c (join [c] l) = l.
Proof.
  induction l as [|x l IH]; [congruence|]. intros _ H. inversion H as [|? ? Hx Hl]; subst.
  assert (Hx' : forall y, In y x -> y <> c) by (intros y Hy ->; contradiction).
  destruct l as [|y l].
  - apply split_on_no. exact Hx'.
  - change (join [c] (x :: y :: l)) with (x ++ c :: join [c] (y :: l)). rewrite split_on_app by exact Hx'.
    rewrite IH; auto. discriminate.
Qed.

Section Tree.
Context {E : Env} (D : display).

Fixpoint children (below : text) (l : list msg) : result text :=
  match l with
  | [] => Err IndexError
  | x :: l' =>
    match l' with
    | [] => rbind (render D x (below ++ [c_last])) (fun t => Ok (t ++ [10%N]))
    | _ => rbind (render D x (below ++ [c_more])) (fun t =>
           rbind (children below l') (fun r => Ok (t ++ [10%N] ++ r)))
    end
  end.
Lemma render_parts h l prefix : render D (Msg h (PParts l)) prefix =
  rbind (d_length D (Msg h (PParts l))) (fun n => rbind (children (prefix_below prefix) l) (fun r =>
    Ok (rstrip (part_line D prefix c_node (Msg h (PParts l)) n ++ [10%N] ++ r)))).
Proof.
  cbn [render]. destruct (d_length D (Msg h (PParts l))) as [n|e]; [|reflexivity]. cbn [rbind]. cbv zeta. f_equal.
  induction l as [|x l IH]; [reflexivity|]. cbn [children]. destruct l as [|y l]; [reflexivity|].
  destruct (render D x _); [|reflexivity]. cbn [rbind]. rewrite IH. reflexivity.
Qed.

Lemma below_cols cols branch : branch = c_last \/ branch = c_more ->
  exists c, prefix_below (cols ++ [branch]) = cols ++ [c] /\ (c = 32%N \/ c = c_bar).
Proof.
  intros H. unfold prefix_below, ends_with.
  assert (Hr : forall c, rev (cols ++ [c]) = c :: rev cols) by (intros; rewrite rev_app_distr; reflexivity).
  rewrite Hr. destruct H as [-> | ->].
  - rewrite N.eqb_refl, removelast_last. cbv zeta. change (L " ") with [32%N]. rewrite Hr.
    exists 32%N. auto.
  - change (N.eqb c_more c_last) with false. cbv zeta iota. rewrite Hr, N.eqb_refl, removelast_last. exists c_bar. auto.
Qed.

Lemma dec_one_line n : one_line (dec_N n).
Proof.
  destruct (dec_N_written n) as [H _]. intros Hi. rewrite Forall_forall in H. apply H in Hi. unfold digit in Hi. lia.
Qed.
Lemma disposition_one_line m : one_line (disposition D m).
Proof.
  unfold disposition. destruct (d_params D m) as [l|]; [|intros []].
  assert (H : forall acc, one_line acc -> one_line (fold_left (fun acc d => if mem_text (fst d) [L "attachment"; L "inline"] then L " " ++ fst d else acc) l acc)).
  { induction l as [|d l IH]; intros acc Ha; [exact Ha|]. cbn [fold_left]. apply IH.
    destruct (mem_text (fst d) [L "attachment"; L "inline"]) eqn:Em; [|exact Ha].
    apply mem_text_In in Em. destruct Em as [<- | [<- | []]]; vm_compute; intuition discriminate. }
  apply H. intros [].
Qed.
Lemma one_line_app a b : one_line a -> one_line b -> one_line (a ++ b).
Proof. intros Ha Hb Hi. apply in_app_or in Hi as [Hi|Hi]; auto. Qed.
Lemma one_line_lit t : forallb (fun c => negb (N.eqb c 10)) t = true -> one_line t.
Proof. rewrite forallb_forall. intros H Hi. apply H in Hi. discriminate. Qed.

Definition columns (cols : text) : Prop := Forall (fun c => c = 32%N \/ c = c_bar) cols.
Lemma columns_one_line cols : columns cols -> one_line cols.
Proof. intros H Hi. unfold columns in H. rewrite Forall_forall in H. apply H in Hi as [Hi|Hi]; discriminate. Qed.

Lemma part_line_ok cols branch kind m n : columns cols -> (branch = c_last \/ branch = c_more) ->
  kind = (if multipart m then c_node else c_leaf) -> flat D m ->
  let line := part_line D (cols ++ [branch]) kind m n in
  tree_line (length cols, m) line /\ one_line line /\ ends_ok line.
Proof.
  intros Hc Hb -> [F1 [F2 [F3 F4]]] line.
  assert (Hch : one_line (match d_charset D m with None => [] | Some c => L " (" ++ c ++ L ")" end)).
  { destruct (d_charset D m) as [c|]; [|intros []]. repeat apply one_line_app; try (apply one_line_lit; reflexivity). auto. }
  assert (Hfn : one_line (match d_filename D m with Some f => f | None => [] end)).
  { destruct (d_filename D m) as [f|]; [auto|intros []]. }
  assert (Hsu : one_line (part_subject m)).
  { unfold part_subject. destruct (hget m (L "subject")) as [v|]; [|intros []].
    repeat apply one_line_app; try (apply one_line_lit; reflexivity). auto. }
  split; [|split].
  - unfold line, part_line, part_label. rewrite <- !app_assoc. exists cols, branch. eexists. split; [|split; [|split]].
    + cbn [app snd]. reflexivity.
    + reflexivity.
    + exact Hc.
    + exact Hb.
  - unfold line, part_line, part_label. repeat apply one_line_app; try (apply one_line_lit; reflexivity);
      auto using columns_one_line, dec_one_line, disposition_one_line.
    + apply one_line_lit. destruct Hb as [-> | ->]; reflexivity.
    + apply one_line_lit. destruct (multipart m); reflexivity.
  - unfold line, part_line. do 5 apply ends_ok_app. unfold part_subject. destruct (hget m (L "subject")) as [v|].
    + do 3 apply ends_ok_app. exists [], 41%N. auto.
    + rewrite app_nil_r. exists (L " byte"), 115%N. auto.
Qed.

Definition good_lines (n : nat) (ps : list (nat * msg)) (lines : list text) : Prop :=
  Forall2 tree_line ps lines /\ Forall (fun l => one_line l /\ ends_ok l) lines.
Lemma good_ends lines : lines <> [] -> Forall (fun l => one_line l /\ ends_ok l) lines -> ends_ok (join [10%N] lines).
Proof.
  intros Hn H. induction H as [|x l [_ Hx] H IH]; [congruence|]. destruct l as [|y l]; [exact Hx|].
  change (join [10%N] (x :: y :: l)) with (x ++ [10%N] ++ join [10%N] (y :: l)). do 2 apply ends_ok_app. apply IH. discriminate.
Qed.

Definition good (n : nat) (m : msg) : Prop := Forall (fun p => showable D (snd p) /\ flat D (snd p)) (parts_of n m).
Lemma parts_of_nonnil n m : parts_of n m <> []. Proof. destruct m; discriminate. Qed.

Lemma render_good m : forall cols branch, columns cols -> (branch = c_last \/ branch = c_more) -> good (length cols) m ->
  exists lines, render D m (cols ++ [branch]) = Ok (join [10%N] lines) /\ good_lines (length cols) (parts_of (length cols) m) lines.
Proof.
  induction m as [h b IH] using msg_ind'. intros cols branch Hc Hb Hg.
  unfold good in Hg. cbn [parts_of] in Hg. inversion Hg as [|? ? [Hs Hf] Hg']; subst. cbn [snd] in Hs, Hf.
  destruct b as [|t|t|l].
  - destruct Hs.
  - eexists [_]. destruct (part_line_ok cols branch c_leaf (Msg h (PStr t)) (length t) Hc Hb eq_refl Hf) as [H1 [H2 H3]].
    split; [cbn [render]; rewrite rstrip_nl by exact H3; reflexivity|]. split; repeat constructor; auto.
  - eexists [_]. destruct (part_line_ok cols branch c_leaf (Msg h (PBytes t)) (length t) Hc Hb eq_refl Hf) as [H1 [H2 H3]].
    split; [cbn [render]; rewrite rstrip_nl by exact H3; reflexivity|]. split; repeat constructor; auto.
  - destruct Hs as [Hn [n Hd]]. cbn [m_body] in Hn.
    rewrite render_parts, Hd. cbn [rbind].
    destruct (below_cols cols branch Hb) as [c [-> Hcc]].
    assert (Hc' : columns (cols ++ [c])) by (apply Forall_app; split; [exact Hc|constructor; [exact Hcc|constructor]]).
    assert (Hlen : length (cols ++ [c]) = S (length cols)) by (rewrite app_length; cbn; lia).
    specialize (IH l eq_refl).
    assert (Hch : exists lines, lines <> [] /\ children (cols ++ [c]) l = Ok (join [10%N] lines ++ [10%N]) /\
              good_lines (S (length cols)) (flat_map (parts_of (S (length cols))) l) lines).
    { clear Hd Hg Hf. revert Hn Hg'. induction IH as [|x l Hx IHl IHl']; [congruence|]. intros _ Hg'.
      cbn [flat_map] in Hg'. apply Forall_app in Hg' as [G1 G2].
      assert (Hone : forall br, br = c_last \/ br = c_more -> exists lines, lines <> [] /\ render D x ((cols ++ [c]) ++ [br]) = Ok (join [10%N] lines) /\
                good_lines (S (length cols)) (parts_of (S (length cols)) x) lines).
      { intros br Hbr. destruct (Hx (cols ++ [c]) br Hc' Hbr) as [ls [L1 L2]].
        - unfold good. rewrite Hlen. exact G1.
        - rewrite Hlen in L2. exists ls. split; [|split; auto]. intros ->. destruct L2 as [L2 _].
          inversion L2 as [He|]. symmetry in He. exact (parts_of_nonnil _ _ He). }
      cbn [children]. destruct l as [|y l].
      - destruct (Hone c_last) as [ls [L0 [L1 L2]]]; [auto|]. exists ls. rewrite L1. cbn [rbind flat_map]. rewrite app_nil_r. auto.
      - destruct (Hone c_more) as [ls [L0 [L1 [L2 L3]]]]; [auto|]. rewrite L1. cbn [rbind].
        destruct (IHl' ltac:(discriminate) G2) as [ls2 [M0 [M1 [M2 M3]]]]. rewrite M1. cbn [rbind].
        exists (ls ++ ls2). split; [destruct ls; [congruence|discriminate]|]. split; [|split].
        + rewrite join_app by assumption. rewrite <- !app_assoc. reflexivity.
        + change (flat_map (parts_of (S (length cols))) (x :: y :: l)) with (parts_of (S (length cols)) x ++ flat_map (parts_of (S (length cols))) (y :: l)).
          apply Forall2_app; assumption.
        + apply Forall_app. auto. }
    destruct Hch as [ls [L0 [L1 [L2 L3]]]]. rewrite L1. cbn [rbind].
    destruct (part_line_ok cols branch c_node (Msg h (PParts l)) n Hc Hb eq_refl Hf) as [H1 [H2 H3]].
    set (line := part_line D (cols ++ [branch]) c_node (Msg h (PParts l)) n) in *.
    exists (line :: ls). split.
    + f_equal. transitivity (rstrip ((line ++ [10%N] ++ join [10%N] ls) ++ [10%N])).
      { f_equal. rewrite <- !app_assoc. reflexivity. }
      rewrite rstrip_nl; [|do 2 apply ends_ok_app; apply good_ends; assumption].
      destruct ls; [congruence|]. reflexivity.
    + split; [cbn [parts_of]; constructor; auto|]. constructor; auto.
Qed.

Lemma render_tree m : Forall (fun p => showable D (snd p) /\ flat D (snd p)) (parts_of 0 m) ->
  exists out, render_mime_structure D m = Ok out /\ Forall2 tree_line (parts_of 0 m) (split_on 10 out).
Proof.
  intros H. destruct (render_good m [] c_last) as [lines [H1 [H2 H3]]]; [constructor|auto|exact H|].
  exists (join [10%N] lines). split; [exact H1|]. rewrite split_join; [exact H2| |].
  - intros ->. inversion H2 as [He|]. symmetry in He. exact (parts_of_nonnil _ _ He).
  - eapply Forall_impl; [|exact H3]. intros l [Hl _]. exact Hl.
Qed.
End Tree.

(** ** C54 *)
Section Match.
Context {E : Env}.
Lemma suffix_slice_suffix i s : suffix_of (suffix_slice i s) s.
Proof.
  unfold suffix_slice. destruct i; [exists []; reflexivity|]. exists (firstn (length s - S i) s). symmetry. apply firstn_skipn.
Qed.
Lemma suffix_slice_length i s : i <> 0 -> i <= length s -> length (suffix_slice i s) = i.
Proof. intros H1 H2. unfold suffix_slice. destruct i; [congruence|]. rewrite skipn_length. lia. Qed.
Lemma suffix_slice_all s : suffix_slice (length s) s = s.
Proof. unfold suffix_slice. destruct s; [reflexivity|]. cbn [length]. rewrite Nat.sub_diag. reflexivity. Qed.
Lemma suffix_unique p q s : suffix_of p s -> suffix_of q s -> length p = length q -> p = q.
Proof.
  intros [a Ha] [b Hb] Hl. assert (Hab : length a = length b) by (apply (f_equal (@length N)) in Ha, Hb; rewrite app_length in *; lia).
  rewrite Ha in Hb. clear Ha. revert b Hb Hab. induction a as [|x a IH]; intros [|y b]; cbn; intros Hb Hab; try discriminate; auto.
  injection Hb as _ Hb. injection Hab as Hab. eauto.
Qed.

(** [p] is, ignoring case, the end of [s] *)
Lemma match_sym id other : ki_match id other = ki_match other id.
Proof. unfold ki_match. rewrite Nat.min_comm. apply text_eqb_sym. Qed.
Lemma match_le id other : other <> [] -> length other <= length id ->
  (ki_match id other = true <-> exists p, suffix_of p id /\ length p = length other /\ lower p = lower other).
Proof.
  intros Hn Hl. unfold ki_match. rewrite Nat.min_l by exact Hl. cbv zeta. rewrite text_eqb_eq, suffix_slice_all. split.
  - intros H. exists (suffix_slice (length other) id). split; [apply suffix_slice_suffix|].
    split; [|exact H]. apply suffix_slice_length; [|exact Hl]. destruct other; [congruence|discriminate].
  - intros [p [H1 [H2 H3]]]. rewrite <- H3. f_equal. apply (suffix_unique _ _ id); [apply suffix_slice_suffix|exact H1|].
    rewrite suffix_slice_length; [auto| |exact Hl]. destruct other; [congruence|discriminate].
Qed.
Lemma suffix_length p s : suffix_of p s -> length p <= length s.
Proof. intros [a ->]. rewrite app_length. lia. Qed.

Lemma ends_like_refl_len s t : ends_like s t -> length s = length t -> lower s = lower t.
Proof.
  intros [p [H1 [H2 H3]]] Hl. rewrite <- H3. f_equal. apply (suffix_unique s p s); auto; [exists []; reflexivity|lia].
Qed.
Lemma match_general id other : id <> [] -> other <> [] ->
  (ki_match id other = true <-> ends_like id other \/ ends_like other id).
Proof.
  intros H1 H2. destruct (le_ge_dec (length other) (length id)) as [Hl|Hl].
  - rewrite match_le by assumption. fold (ends_like id other). split; [auto|]. intros [H|H]; [exact H|].
    pose proof H as [p [P1 [P2 P3]]]. apply suffix_length in P1. apply ends_like_refl_len in H; [|lia].
    exists id. split; [exists []; reflexivity|]. split; [lia|auto].
  - rewrite match_sym, match_le by assumption. fold (ends_like other id). split; [auto|]. intros [H|H]; [|exact H].
    pose proof H as [p [P1 [P2 P3]]]. apply suffix_length in P1. apply ends_like_refl_len in H; [|lia].
    exists other. split; [exists []; reflexivity|]. split; [lia|auto].
Qed.
Lemma match_empty id other : id = [] \/ other = [] -> (ki_match id other = true <-> lower id = lower other).
Proof.
  intros H. unfold ki_match. assert (Hm : Nat.min (length other) (length id) = 0) by (destruct H as [-> | ->]; cbn; lia).
  rewrite Hm. cbv zeta. cbn [suffix_slice]. apply text_eqb_eq.
Qed.

Lemma lower_ascii s : is_ascii s = true -> lower s = map ascii_lower_cp s.
Proof. intros H. unfold lower. rewrite H. reflexivity. Qed.
Lemma ascii_suffix p s : suffix_of p s -> is_ascii s = true -> is_ascii p = true.
Proof. intros [a ->] H. unfold is_ascii in *. rewrite forallb_app in H. apply andb_prop in H. tauto. Qed.
Lemma ends_like_ascii s t : is_ascii s = true -> is_ascii t = true -> (ends_like s t <-> suffix_of (lower t) (lower s)).
Proof.
  intros Hs Ht. split.
  - intros [p [H1 [H2 H3]]]. rewrite <- H3, !lower_ascii by eauto using ascii_suffix. destruct H1 as [a ->]. exists (map ascii_lower_cp a). apply map_app.
  - intros [a Ha]. rewrite !lower_ascii in Ha by assumption.
    assert (Hl : length s = length a + length t) by (apply (f_equal (@length N)) in Ha; rewrite app_length, !map_length in Ha; exact Ha).
    exists (skipn (length a) s). assert (Hsu : suffix_of (skipn (length a) s) s) by (exists (firstn (length a) s); symmetry; apply firstn_skipn).
    split; [exact Hsu|]. split; [rewrite skipn_length; lia|].
    rewrite !lower_ascii by eauto using ascii_suffix. rewrite <- skipn_map, Ha, skipn_app, skipn_all, Nat.sub_diag. reflexivity.
Qed.
Lemma match_ascii id other : is_ascii id = true -> is_ascii other = true ->
  (ki_match id other = true <-> (id = [] /\ other = []) \/
     (id <> [] /\ other <> [] /\ (suffix_of (lower id) (lower other) \/ suffix_of (lower other) (lower id)))).
Proof.
  intros H1 H2. destruct id as [|x id].
  { rewrite match_empty by auto. destruct other as [|y other]; [intuition|].
    rewrite (lower_ascii (y :: other)) by exact H2. split; [discriminate|]. intros [[_ H]|[H _]]; congruence. }
  destruct other as [|y other].
  { rewrite match_empty by auto. rewrite (lower_ascii (x :: id)) by exact H1. split; [discriminate|].
    intros [[H _]|[_ [H _]]]; congruence. }
  rewrite match_general by discriminate. rewrite !ends_like_ascii by assumption.
  split; [intros H; right; split; [discriminate|split; [discriminate|tauto]]|intros [[H _]|[_ [_ H]]]; [discriminate|tauto]].
Qed.
End Match.
