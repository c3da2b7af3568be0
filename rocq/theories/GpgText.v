(** Proofs about the texts that gpg prints. *)
From Verif Require Import Base PyStr Env Prog Chain Gpg GpgSpec.

Section GpgText.
Context {E : Env}.

Lemma startswith_app p s : startswith p (p ++ s) = true.
Proof. induction p as [|c p IH]; [reflexivity|]. cbn [app startswith]. rewrite N.eqb_refl. exact IH. Qed.
Lemma startswith_inv p s : startswith p s = true -> exists r, s = p ++ r.
Proof.
  revert s. induction p as [|c p IH]; intros s H; [exists s; reflexivity|]. destruct s as [|d s]; [discriminate|]. cbn [startswith] in H.
  apply andb_prop in H as [H1 H2]. apply N.eqb_eq in H1 as ->. apply IH in H2 as [r ->]. exists r. reflexivity.
Qed.
Lemma re_lit_app {A} p (k : re_rest A) s : re_lit p k (p ++ s) = k s.
Proof. unfold re_lit. rewrite startswith_app, skipn_app, skipn_all, Nat.sub_diag. reflexivity. Qed.
Lemma re_lit_some {A} p (k : re_rest A) s r : re_lit p k s = Some r -> exists s', s = p ++ s' /\ k s' = Some r.
Proof.
  unfold re_lit. destruct (startswith p s) eqn:Es; [|discriminate]. apply startswith_inv in Es as [s' ->].
  rewrite skipn_app, skipn_all, Nat.sub_diag. eauto.
Qed.
Lemma re_any_some {A} (k : re_rest A) s r : re_any k s = Some r -> exists a b, s = a ++ b /\ k b = Some r.
Proof.
  induction s as [|c s IH]; cbn [re_any]; [exists [], []; auto|]. destruct (re_any k s) as [x|] eqn:Ea.
  - intros [= <-]. destruct (IH eq_refl) as [a [b [-> Hb]]]. exists (c :: a), b. auto.
  - intros H. exists [], (c :: s). auto.
Qed.
Lemma re_any_none {A} (k : re_rest A) s : (forall a b, s = a ++ b -> k b = None) -> re_any k s = None.
Proof.
  intros H. destruct (re_any k s) as [x|] eqn:Ea; [|reflexivity]. apply re_any_some in Ea as [a [b [-> Hb]]]. rewrite (H a b eq_refl) in Hb. discriminate.
Qed.
(** the last place at which the rest matches *)
Lemma re_any_last {A} (k : re_rest A) a c b r : k (c :: b) = Some r -> (forall x y, b = x ++ y -> k y = None) -> re_any k (a ++ c :: b) = Some r.
Proof.
  intros H1 H2. induction a as [|d a IH]; cbn [app re_any]; [rewrite (re_any_none k b H2); exact H1|]. rewrite IH. reflexivity.
Qed.
Lemma re_some_run {A} f (k : text -> re_rest A) g c s r : g <> [] -> (forall x, In x g -> f x = true) -> f c = false -> k g (c :: s) = Some r ->
  re_some f k (g ++ c :: s) = Some r.
Proof.
  revert k. induction g as [|d g IH]; intros k Hn Hg Hc Hk; [congruence|]. cbn [app re_some]. rewrite (Hg d) by (left; reflexivity).
  destruct g as [|d' g].
  - cbn [app re_some]. rewrite Hc. exact Hk.
  - rewrite (IH (fun g0 => k (d :: g0))); [reflexivity|discriminate| |exact Hc|exact Hk]. intros x Hx. apply Hg. right. exact Hx.
Qed.
Lemma re_lit_none {A} c p (k : re_rest A) s : ~ In c s -> re_lit (c :: p) k s = None.
Proof.
  intros H. destruct (re_lit (c :: p) k s) eqn:Er; [|reflexivity]. apply re_lit_some in Er as [s' [-> _]]. exfalso. apply H. left. reflexivity.
Qed.
Lemma not_in_suffix {A} (c : A) s x y : ~ In c s -> s = x ++ y -> ~ In c y.
Proof. intros H -> Hy. apply H. apply in_or_app. right. exact Hy. Qed.

Lemma all_of_not f s c : all_of f s -> f c = false -> ~ In c s.
Proof. intros [_ H] Hc Hi. rewrite (H c Hi) in Hc. discriminate. Qed.
Lemma not_in_app {A} (c : A) s t : ~ In c s -> ~ In c t -> ~ In c (s ++ t).
Proof. intros H1 H2 H. apply in_app_or in H as [H|H]; auto. Qed.

Lemma capital_word c : capital_cp c = true -> is_word c = true.
Proof.
  unfold capital_cp, digit_cp, is_word, isalnum_cp, is_ascii_cp, ascii_alnum_cp. intros H.
  assert (Hc : N.ltb c 128 = true).
  { apply N.ltb_lt. apply orb_prop in H as [H|H]; apply andb_prop in H as [_ H]; apply N.leb_le in H; lia. }
  rewrite Hc. apply orb_prop in H as [H|H]; rewrite H; rewrite ?orb_true_r; reflexivity.
Qed.
Lemma hex_capital c : hex_cp c = true -> capital_cp c = true.
Proof.
  unfold hex_cp, capital_cp. intros H. apply orb_prop in H as [H|H]; [rewrite H; reflexivity|]. apply andb_prop in H as [H1 H2].
  rewrite H1. apply N.leb_le in H2. assert (Hc : N.leb c 90 = true) by (apply N.leb_le; lia). rewrite Hc, orb_true_r. reflexivity.
Qed.

Lemma enc_line_key bits type id date : all_of digit_cp bits -> all_of capital_cp type -> all_of hex_cp id -> all_of date_cp date ->
  enc_line (key_line bits type id date) = Some (bits, type, id, date).
Proof.
  intros Hb Ht Hi Hd. unfold enc_line, key_line.
  change (L "gpg: encrypted with " ++ bits ++ L "-bit " ++ type ++ L " key, ID " ++ id ++ L ", created " ++ date)
    with (L "gpg" ++ (L ": encrypted " ++ 119%N :: L "ith " ++ bits ++ L "-bit " ++ type ++ L " key, ID " ++ id ++ L ", created " ++ date)).
  rewrite re_lit_app. apply re_any_last.
  - change (119%N :: L "ith " ++ bits ++ L "-bit " ++ type ++ L " key, ID " ++ id ++ L ", created " ++ date)
      with (L "with " ++ bits ++ 45%N :: L "bit " ++ type ++ L " key, ID " ++ id ++ L ", created " ++ date).
    rewrite re_lit_app. apply re_some_run; [apply Hb|apply Hb|reflexivity|].
    change (45%N :: L "bit " ++ type ++ L " key, ID " ++ id ++ L ", created " ++ date)
      with (L "-bit " ++ type ++ 32%N :: L "key, ID " ++ id ++ L ", created " ++ date).
    rewrite re_lit_app. apply re_some_run; [apply Ht|intros x Hx; apply capital_word, Ht, Hx|reflexivity|].
    change (32%N :: L "key, ID " ++ id ++ L ", created " ++ date) with (L " key, " ++ 73%N :: L "D " ++ id ++ L ", created " ++ date).
    apply re_any_last.
    + change (73%N :: L "D " ++ id ++ L ", created " ++ date) with (L "ID " ++ id ++ 44%N :: L " created " ++ date).
      rewrite re_lit_app. apply re_some_run; [apply Hi|intros x Hx; apply capital_word, hex_capital, Hi, Hx|reflexivity|].
      change (44%N :: L " created " ++ date) with (L ", " ++ 99%N :: L "reated " ++ date). apply re_any_last.
      * change (99%N :: L "reated " ++ date) with (L "created " ++ date). rewrite re_lit_app. reflexivity.
      * intros x y Hxy. apply re_lit_none. eapply not_in_suffix; [|exact Hxy]. apply not_in_app; [|apply (all_of_not _ _ _ Hd); reflexivity].
        cbv. intuition discriminate.
    + intros x y Hxy. apply re_lit_none. eapply not_in_suffix; [|exact Hxy]. apply not_in_app; [cbv; intuition discriminate|].
      apply not_in_app; [apply (all_of_not _ _ _ Hi); reflexivity|]. apply not_in_app; [cbv; intuition discriminate|apply (all_of_not _ _ _ Hd); reflexivity].
  - intros x y Hxy. apply re_lit_none. eapply not_in_suffix; [|exact Hxy].
    repeat (apply not_in_app; [first [apply (all_of_not _ _ _ Hb); reflexivity | apply (all_of_not _ _ _ Ht); reflexivity | apply (all_of_not _ _ _ Hi); reflexivity | cbv; intuition discriminate]|]).
    apply (all_of_not _ _ _ Hd); reflexivity.
Qed.

Lemma re_some_some {A} f (k : text -> re_rest A) s r : re_some f k s = Some r -> exists g s', s = g ++ s' /\ k g s' = Some r.
Proof.
  revert k. induction s as [|c s IH]; intros k H; cbn [re_some] in H; [discriminate|]. destruct (f c); [|discriminate].
  destruct (re_some f (fun g => k (c :: g)) s) as [x|] eqn:Es.
  - injection H as <-. apply IH in Es as [g [s' [-> Hk]]]. exists (c :: g), s'. auto.
  - exists [c], s. auto.
Qed.
Lemma enc_line_other line : ~ (exists r, line = L "gpg" ++ r) \/ (forall a b, line <> a ++ L "-bit " ++ b) -> enc_line line = None.
Proof.
  intros H. destruct (enc_line line) as [q|] eqn:El; [|reflexivity]. exfalso. unfold enc_line in El.
  apply re_lit_some in El as [s [-> El]]. destruct H as [H|H]; [apply H; eauto|].
  apply re_any_some in El as [a [b [-> El]]]. apply re_lit_some in El as [s [-> El]]. apply re_some_some in El as [g [s' [-> El]]].
  apply re_lit_some in El as [s'' [-> _]]. apply (H (L "gpg" ++ a ++ L "with " ++ g) s''). rewrite <- !app_assoc. reflexivity.
Qed.

(** ** The user id line *)
Lemma lstrip_nonspace c s : is_space c = false -> lstrip (c :: s) = c :: s.
Proof. intros H. cbn [lstrip]. rewrite H. reflexivity. Qed.
Lemma strip_uid uid : strip (uid_line uid) = [34%N] ++ uid ++ [34%N].
Proof.
  unfold strip, uid_line, rstrip. change (lstrip (L "      " ++ [34%N] ++ uid ++ [34%N])) with ([34%N] ++ uid ++ [34%N]).
  rewrite !rev_app_distr. change (rev [34%N]) with [34%N]. rewrite <- app_assoc.
  change ([34%N] ++ rev uid ++ [34%N]) with (34%N :: rev uid ++ [34%N]).
  rewrite lstrip_nonspace by reflexivity. change (34%N :: rev uid ++ [34%N]) with ([34%N] ++ rev uid ++ [34%N]).
  rewrite !rev_app_distr, rev_involutive. rewrite <- app_assoc. reflexivity.
Qed.
Lemma quotes_uid uid : (forall r, uid <> 34%N :: r) -> (forall r, uid <> r ++ [34%N]) -> strip_quotes ([34%N] ++ uid ++ [34%N]) = uid.
Proof.
  intros H1 H2. unfold strip_quotes.
  set (lq := fix lq (s : text) := match s with c :: s' => if N.eqb c 34 then lq s' else s | [] => [] end).
  assert (L1 : lq ([34%N] ++ uid ++ [34%N]) = match uid with [] => [] | _ => uid ++ [34%N] end).
  { cbn [app lq]. destruct uid as [|c u]; [reflexivity|]. cbn [app N.eqb Pos.eqb]. cbn [lq]. destruct (N.eqb_spec c 34) as [->|_]; [exfalso; eapply H1; reflexivity|reflexivity]. }
  rewrite L1. destruct uid as [|c u]; [reflexivity|]. rewrite rev_app_distr. cbn [rev app].
  assert (Hr : exists d v, rev u ++ [c] = d :: v).
  { destruct (rev u) as [|d v]; cbn [app]; eauto. }
  destruct Hr as [d [v Hr]]. rewrite Hr. cbn [lq N.eqb Pos.eqb].
  assert (Hu : c :: u = rev v ++ [d]) by (apply (f_equal (@rev N)) in Hr; rewrite rev_app_distr, rev_involutive in Hr; cbn [rev app] in Hr; exact Hr).
  destruct (N.eqb_spec d 34) as [->|_]; [exfalso; eapply H2; exact Hu|]. cbn [rev]. rewrite Hu. reflexivity.
Qed.

Lemma enc_keyinfos_reports ls ks : reports ls ks -> forall n uid, (length ls <= n)%nat -> enc_keyinfos n uid ls = Ok ks.
Proof.
  induction 1 as [|line ls ks Ho H IH|bits type id date u ls ks Hb Ht Hi Hd H1 H2 H IH]; intros n uid Hn.
  - destruct n; reflexivity.
  - destruct n as [|n]; [cbn in Hn; lia|]. cbn [enc_keyinfos]. rewrite (enc_line_other line Ho). apply IH. cbn [length] in Hn. lia.
  - destruct n as [|n]; [cbn in Hn; lia|]. cbn [enc_keyinfos]. rewrite (enc_line_key bits type id date Hb Ht Hi Hd).
    change (startswith (L "    ") (uid_line u)) with true. cbv iota zeta. rewrite strip_uid, (quotes_uid u H1 H2).
    rewrite IH by (cbn [length] in Hn; lia). reflexivity.
Qed.
End GpgText.

Lemma all_of_forallb : forall f s, s <> [] -> forallb f s = true -> all_of f s.
Proof. intros f s Hn H. split; [exact Hn|]. apply forallb_forall. exact H. Qed.
