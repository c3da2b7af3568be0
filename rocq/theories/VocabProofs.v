(** Proofs for C79 and C80. *)
From Verif Require Import Base PyStr Env Prog Chain Gpg Mime States Recommendation Account Cmdline Bot Fs Api Spec PeerSpec OutSpec CliSpec AcctSpec GpgSpec TalkSpec FailSpec KeySpec RecSpec
  Utf8 Steps StepFacts ApiScope Obs Exec Incoming OutProofs OutProofs2 KeyProofs GpgMore GpgMoreSpec GpgMoreProofs VocabSpec.

Local Ltac nz := repeat match goal with
  | H : N.leb _ _ = true |- _ => apply N.leb_le in H
  | H : N.leb _ _ = false |- _ => apply N.leb_gt in H
  | H : N.ltb _ _ = true |- _ => apply N.ltb_lt in H
  | H : N.ltb _ _ = false |- _ => apply N.ltb_ge in H
  | H : N.eqb _ _ = true |- _ => apply N.eqb_eq in H
  | H : N.eqb _ _ = false |- _ => apply N.eqb_neq in H
  | H : _ && _ = true |- _ => apply andb_prop in H; destruct H
  | H : _ && _ = false |- _ => apply andb_false_iff in H
  | H : _ || _ = true |- _ => apply orb_true_iff in H
  | H : _ || _ = false |- _ => apply orb_false_iff in H; destruct H
  | H : _ \/ _ |- _ => destruct H
  end.

(** ** Characters *)
Theorem c79_space : forall c, is_space c = true <-> In c white_space.
Proof.
  intros c. split.
  - unfold is_space. intros H. nz; unfold white_space;
      repeat (match goal with |- In ?x (?y :: _) => destruct (N.eq_dec y x) as [<-|]; [left; reflexivity|right] end); exfalso; lia.
  - intros H. unfold white_space in H. repeat (destruct H as [<-|H]; [reflexivity|]). destruct H.
Qed.
Section Chars.
Context {E : Env}.
Lemma ascii_is s : ascii s <-> is_ascii s = true.
Proof.
  unfold ascii, is_ascii. rewrite forallb_forall. split; intros H c Hc; specialize (H c Hc); [apply N.ltb_lt; exact H|apply N.ltb_lt in H; exact H].
Qed.
Theorem c79_lower : forall s, ascii s -> Forall2 small_of s (lower s).
Proof.
  intros s H. apply ascii_is in H. unfold lower. rewrite H. clear H. induction s as [|c s IH]; constructor; [|exact IH].
  unfold small_of, capital, ascii_lower_cp. destruct (N.leb 65 c && N.leb c 90) eqn:Ec; [left|right]; nz; split; lia || reflexivity.
Qed.
Theorem c79_alnum : forall s, ascii s -> (isalnum s = true <-> s <> [] /\ Forall letter_or_digit s).
Proof.
  intros s H. unfold isalnum. rewrite andb_true_iff, nonempty_true, forallb_forall, Forall_forall.
  assert (Hc : forall c, In c s -> isalnum_cp c = true <-> letter_or_digit c).
  { intros c Hc. specialize (H c Hc). unfold isalnum_cp, is_ascii_cp. replace (N.ltb c 128) with true by (symmetry; apply N.ltb_lt; exact H).
    unfold ascii_alnum_cp, letter_or_digit. rewrite !orb_true_iff, !andb_true_iff, !N.leb_le. lia. }
  split; intros [H1 H2]; (split; [exact H1|]); intros c Hi; apply Hc; auto.
Qed.
End Chars.

(** ** UTF-8 *)
Lemma utf8_cp_in c b : utf8_cp c = Some b <-> in_utf8 c b.
Proof.
  assert (D : (c = 64 * (c / 64) + c mod 64)%N) by (apply N.div_mod; lia).
  assert (M : (c mod 64 < 64)%N) by (apply N.mod_lt; lia).
  assert (D2 : (c / 64 = 64 * (c / 4096) + c / 64 mod 64)%N).
  { replace (c / 4096)%N with (c / 64 / 64)%N by (rewrite N.div_div by lia; reflexivity). apply N.div_mod. lia. }
  assert (M2 : (c / 64 mod 64 < 64)%N) by (apply N.mod_lt; lia).
  assert (D3 : (c / 4096 = 64 * (c / 262144) + c / 4096 mod 64)%N).
  { replace (c / 262144)%N with (c / 4096 / 64)%N by (rewrite N.div_div by lia; reflexivity). apply N.div_mod. lia. }
  assert (M3 : (c / 4096 mod 64 < 64)%N) by (apply N.mod_lt; lia).
  unfold utf8_cp, in_utf8. set (w := (c mod 64)%N) in *. set (w2 := (c / 64 mod 64)%N) in *. set (w3 := (c / 4096 mod 64)%N) in *.
  set (p := (c / 64)%N) in *. set (q := (c / 4096)%N) in *. set (q3 := (c / 262144)%N) in *.
  destruct (N.leb c 127) eqn:E1; [nz|destruct (N.leb c 2047) eqn:E2; [nz|destruct (between 55296 c 57343) eqn:E3; [|destruct (N.leb c 65535) eqn:E4; [|destruct (N.leb c 1114111) eqn:E5]]]].
  - split; [intros [= <-]; left; split; [lia|reflexivity]|]. intros [[_ ->]|[[x [y [_ [H1 [H2 H3]]]]]|[[x [y [z [_ [H1 [H2 [H3 _]]]]]]]|[u [x [y [z [_ [H1 [H2 H3]]]]]]]]]]; [reflexivity|lia|lia|lia].
  - split.
    + intros [= <-]. right. left. exists p, w. repeat split; lia || reflexivity.
    + intros [[H _]|[[x [y [-> [H1 [H2 H3]]]]]|[[x [y [z [_ [H1 [H2 [H3 _]]]]]]]|[u [x [y [z [_ [H1 [H2 H3]]]]]]]]]]; [lia| |lia|lia].
      repeat f_equal; lia.
  - apply between_range in E3. split; [discriminate|].
    intros [[H _]|[[x [y [-> [H1 [H2 H3]]]]]|[[x [y [z [_ [H1 [H2 [H3 H4]]]]]]]|[u [x [y [z [_ [H1 [H2 H3]]]]]]]]]]; lia.
  - assert (E3' : (c < 55296 \/ 57343 < c)%N) by (unfold between in E3; nz; lia). clear E3. apply N.leb_gt in E1, E2. apply N.leb_le in E4. split.
    + intros [= <-]. right. right. left. exists q, w2, w. repeat split; lia || reflexivity.
    + intros [[H _]|[[x [y [-> [H1 [H2 H3]]]]]|[[x [y [z [-> [[H1 H1'] [H2 [H3 H4]]]]]]]|[u [x [y [z [_ [H1 [H2 H3]]]]]]]]]]; [lia|lia| |lia].
      assert (p = x * 64 + y)%N by lia. assert (q = x)%N by lia. repeat f_equal; lia.
  - clear E3. apply N.leb_gt in E1, E2, E4. apply N.leb_le in E5. split.
    + intros [= <-]. right. right. right. exists q3, w3, w2, w. repeat split; lia || reflexivity.
    + intros [[H _]|[[x [y [-> [H1 [H2 H3]]]]]|[[x [y [z [-> [[H1 H1'] [H2 [H3 H4]]]]]]]|[u [x [y [z [-> [[H1 [H1' H1'']] [H2 H3]]]]]]]]]]; [lia|lia|lia|].
      assert (p = u * 4096 + x * 64 + y)%N by lia. assert (q = u * 64 + x)%N by lia. assert (q3 = u)%N by lia. repeat f_equal; lia.
  - apply N.leb_gt in E5. split; [discriminate|].
    intros [[H _]|[[x [y [-> [H1 [H2 H3]]]]]|[[x [y [z [_ [H1 [H2 [H3 H4]]]]]]]|[u [x [y [z [_ [H1 [H2 H3]]]]]]]]]]; lia.
Qed.
Lemma to_utf8_in t : forall b, to_utf8 t = Some b <-> exists bs, Forall2 in_utf8 t bs /\ b = concat bs.
Proof.
  induction t as [|c t IH]; intros b; cbn [to_utf8].
  - split; [intros [= <-]; exists []; split; [constructor|reflexivity]|]. intros [bs [H ->]]. inversion H. reflexivity.
  - split.
    + destruct (utf8_cp c) as [x|] eqn:Ex; [|discriminate]. destruct (to_utf8 t) as [y|] eqn:Ey; [|discriminate]. intros [= <-].
      destruct (proj1 (IH y) eq_refl) as [bs [H ->]]. exists (x :: bs). split; [|reflexivity]. constructor; [apply utf8_cp_in; exact Ex|exact H].
    + intros [bs [H ->]]. inversion H as [|? x ? bs' H1 H2]; subst. apply utf8_cp_in in H1. rewrite H1.
      rewrite (proj2 (IH (concat bs'))) by eauto. reflexivity.
Qed.
Theorem c79_utf8 : forall t b,
  (to_utf8 t = Some b <-> exists bs, Forall2 in_utf8 t bs /\ b = concat bs) /\
  (utf8 b = Some t <-> exists bs, Forall2 in_utf8 t bs /\ b = concat bs).
Proof.
  intros t b. split; [apply to_utf8_in|]. rewrite <- to_utf8_in. split; [apply utf8_inverse|apply utf8_roundtrip].
Qed.

(** ** Pieces of texts *)
Theorem c79_pieces : forall c s ls, cut_into c s ls <-> split_on c s = ls.
Proof. intros. apply cut_into_split. Qed.
Theorem c79_begins : forall p s, startswith p s = true <-> exists r, s = p ++ r.
Proof. exact startswith_spec. Qed.
Theorem c79_within : forall p s, contains p s = true <-> exists a b, s = a ++ p ++ b.
Proof.
  intros p s. induction s as [|c s IH]; cbn [contains].
  - rewrite orb_false_r, startswith_spec. split.
    + intros [r Hr]. exists [], r. exact Hr.
    + intros [[|x a] [b H]]; [exists b; exact H|discriminate].
  - rewrite orb_true_iff, startswith_spec, IH. split.
    + intros [[r Hr]|[a [b ->]]]; [exists [], r; exact Hr|exists (c :: a), b; reflexivity].
    + intros [[|x a] [b H]]; [left; exists b; exact H|right]. injection H as <- ->. eauto.
Qed.
Theorem c79_order : forall a b, text_leb a b = true <-> not_after a b.
Proof.
  unfold not_after. induction a as [|x a IH]; intros b.
  - cbn. split; [intros _; left; exists b; reflexivity|reflexivity].
  - destruct b as [|y b]; cbn [text_leb].
    + split; [discriminate|]. intros [[r H]|[p [u [v [a' [b' [H1 [H2 _]]]]]]]]; [discriminate|destruct p; discriminate].
    + rewrite orb_true_iff, andb_true_iff, N.ltb_lt, N.eqb_eq, IH. split.
      * intros [H|[-> [[r ->]|[p [u [v [a' [b' [-> [-> H]]]]]]]]]].
        -- right. exists [], x, y, a, b. auto.
        -- left. exists r. reflexivity.
        -- right. exists (y :: p), u, v, a', b'. auto.
      * intros [[r H]|[[|z p] [u [v [a' [b' [H1 [H2 H3]]]]]]]].
        -- injection H as -> ->. right. split; [reflexivity|]. left. exists r. reflexivity.
        -- injection H1 as -> ->. injection H2 as -> ->. left. exact H3.
        -- injection H1 as -> ->. injection H2 as -> ->. right. split; [reflexivity|]. right. exists p, u, v, a', b'. auto.
Qed.
Lemma nonspace c : ~ In c white_space <-> is_space c = false.
Proof. rewrite <- c79_space. destruct (is_space c); split; congruence. Qed.
Lemma ws_skip w : Forall (fun c => In c white_space) w -> forall s, split_ws_aux [] (w ++ s) = split_ws_aux [] s.
Proof. induction 1 as [|c w Hc _ IH]; intros s; [reflexivity|]. cbn. rewrite (proj2 (c79_space c) Hc). apply IH. Qed.
Lemma ws_take x : Forall (fun c => ~ In c white_space) x -> forall acc s, split_ws_aux acc (x ++ s) = split_ws_aux (rev x ++ acc) s.
Proof.
  induction 1 as [|c x Hc _ IH]; intros acc s; [reflexivity|]. cbn [app split_ws_aux rev]. rewrite (proj1 (nonspace c) Hc), IH.
  rewrite <- app_assoc. reflexivity.
Qed.
Lemma ws_word x : x <> [] -> Forall (fun c => ~ In c white_space) x -> forall s, (s = [] -> split_ws_aux [] (x ++ s) = [x]) /\
  (forall c r, s = c :: r -> In c white_space -> split_ws_aux [] (x ++ s) = x :: split_ws_aux [] r).
Proof.
  intros Hx Hc s. assert (N : rev x <> []) by (intros H; apply Hx; rewrite <- (rev_involutive x), H; reflexivity).
  rewrite ws_take by exact Hc. rewrite app_nil_r. split.
  - intros ->. cbn [split_ws_aux]. destruct (rev x) eqn:Er; [congruence|]. rewrite <- Er, rev_involutive. reflexivity.
  - intros c r -> Hs. cbn [split_ws_aux]. rewrite (proj2 (c79_space c) Hs). destruct (rev x) eqn:Er; [congruence|]. rewrite <- Er, rev_involutive. reflexivity.
Qed.
Lemma words_split s ws : in_words s ws -> split_ws s = ws.
Proof.
  unfold split_ws. induction 1 as [w Hw|w x Hw Hx Hc|w x c rest ws Hw Hx Hc Hs Hr IH].
  - rewrite <- (app_nil_r w), ws_skip by exact Hw. reflexivity.
  - rewrite ws_skip by exact Hw. rewrite <- (app_nil_r x) at 1. apply (ws_word x Hx Hc); reflexivity.
  - rewrite ws_skip by exact Hw. destruct (ws_word x Hx Hc (c :: rest)) as [_ W]. rewrite (W c rest eq_refl Hs), IH. reflexivity.
Qed.
Lemma in_words_space c s ws : In c white_space -> in_words s ws -> in_words (c :: s) ws.
Proof.
  intros Hc H. inversion H as [w Hw|w x Hw Hx Hn|w x d rest ws' Hw Hx Hn Hd Hr]; subst.
  - apply W_none. constructor; auto.
  - apply (W_last (c :: w) x); auto.
  - apply (W_word (c :: w) x d rest ws'); auto.
Qed.
Lemma split_words s : forall acc, Forall (fun c => ~ In c white_space) acc -> in_words (rev acc ++ s) (split_ws_aux acc s).
Proof.
  assert (Z : forall (c : N) acc, rev (c :: acc) <> []) by (intros c acc; cbn; destruct (rev acc); discriminate).
  induction s as [|x s IH]; intros acc Ha; cbn [split_ws_aux].
  - rewrite app_nil_r. destruct acc as [|c acc]; [apply W_none; constructor|]. apply (W_last [] (rev (c :: acc))); [constructor|apply Z|]. apply Forall_rev. exact Ha.
  - destruct (is_space x) eqn:Ex.
    + apply c79_space in Ex. destruct acc as [|c acc]; [apply in_words_space; [exact Ex|apply (IH []); constructor]|].
      apply (W_word [] (rev (c :: acc)) x s); [constructor|apply Z|apply Forall_rev; exact Ha|exact Ex|apply (IH []); constructor].
    + apply nonspace in Ex. assert (Hxa : Forall (fun c => ~ In c white_space) (x :: acc)) by (constructor; assumption). specialize (IH (x :: acc) Hxa). cbn [rev] in IH. rewrite <- app_assoc in IH. exact IH.
Qed.
Theorem c79_words : forall s ws, in_words s ws <-> split_ws s = ws.
Proof. intros s ws. split; [apply words_split|]. intros <-. apply (split_words s []). constructor. Qed.

Section VocabProofs.
Context {E : Env}.

(** ** Header fields *)
Lemma fields_all n h vs : fields n h vs <-> map snd (filter (fun kv => text_eqb (lower (fst kv)) (lower n)) h) = vs.
Proof.
  split.
  - induction 1 as [|k v hs vs Hk _ IH|k v hs vs Hk _ IH]; cbn; [reflexivity| |].
    + rewrite (proj2 (text_eqb_eq _ _) Hk). cbn. rewrite IH. reflexivity.
    + rewrite (proj2 (text_eqb_neq _ _) Hk). exact IH.
  - intros <-. induction h as [|[k v] h IH]; cbn; [constructor|]. destruct (text_eqb_spec (lower k) (lower n)); constructor; assumption.
Qed.
Lemma no_fields n h : (forall k v, In (k, v) h -> lower k <> lower n) <-> fields n h [].
Proof.
  split.
  - induction h as [|[k v] h IH]; intros H; constructor; [apply (H k v); left; reflexivity|]. apply IH. intros k' v' Hi. apply (H k' v'). right. exact Hi.
  - intros H k v. remember [] as vs eqn:Ev. induction H as [|k0 v0 hs vs Hk H IH|k0 v0 hs vs Hk H IH]; [intros []|discriminate|].
    intros [[= -> ->]|Hi]; [exact Hk|exact (IH Ev Hi)].
Qed.
Theorem c79_fields : forall m n, (forall vs, fields n (m_headers m) vs <-> hget_all m n = vs) /\
  (forall v, field m n v <-> hget m n = Some v) /\ (no_field m n <-> hget m n = None) /\ (no_field m n <-> hin m n = false).
Proof.
  intros m n. assert (A : forall vs, fields n (m_headers m) vs <-> hget_all m n = vs) by (intros vs; apply fields_all).
  assert (N : no_field m n <-> hget_all m n = []) by (rewrite <- A; apply no_fields).
  split; [exact A|]. rewrite hget_hd, hin_all. split; [|split].
  - intros v. unfold field. split.
    + intros [vs H]. apply A in H. rewrite H. reflexivity.
    + intros H. destruct (hget_all m n) as [|v' vs] eqn:Eh; [discriminate|]. injection H as ->. exists vs. apply A. reflexivity.
  - rewrite N. destruct (hget_all m n); cbn; split; congruence.
  - rewrite N. destruct (hget_all m n); cbn; split; congruence.
Qed.
Lemma field_get m n v : field m n v <-> hget m n = Some v. Proof. apply c79_fields. Qed.
Lemma no_field_get m n : no_field m n <-> hget m n = None. Proof. apply c79_fields. Qed.
Lemma fields_get m n vs : fields n (m_headers m) vs <-> hget_all m n = vs. Proof. apply c79_fields. Qed.

(** ** Content type *)
Lemma hd_split v a : hd [] (split_on 59 v) = a <-> exists rest, v = a ++ rest /\ ~ In 59%N a /\ (rest = [] \/ exists r, rest = L ";" ++ r).
Proof.
  split.
  - intros <-. pose proof (split_on_parts 59 v) as Hp. pose proof (join_split_on 59 v) as Hj. destruct (split_on 59 v) as [|p ps] eqn:Es; [exfalso; exact (split_on_nonnil _ _ Es)|].
    inversion Hp as [|? ? H1 H2]; subst. cbn [hd]. destruct ps as [|q ps].
    + exists []. cbn. rewrite app_nil_r. auto.
    + exists (59%N :: join [59%N] (q :: ps)). split; [reflexivity|]. split; [exact H1|]. right. exists (join [59%N] (q :: ps)). reflexivity.
  - intros [rest [-> [Hn [->|[r ->]]]]].
    + rewrite app_nil_r, split_on_no by (intros x Hx ->; contradiction). reflexivity.
    + change (L ";" ++ r) with (59%N :: r). rewrite split_on_app by (intros x Hx ->; contradiction). reflexivity.
Qed.
Lemma slash_count t : one_slash t <-> count_cp 47 t = 1%nat.
Proof.
  unfold one_slash, count_cp. split.
  - intros [p [q [-> [Hp Hq]]]]. rewrite filter_app. change (L "/" ++ q) with (47%N :: q). cbn [filter]. rewrite N.eqb_refl, app_length. cbn [length].
    assert (Z : forall l, ~ In 47%N l -> filter (N.eqb 47) l = []).
    { intros l Hl. induction l as [|x l IH]; [reflexivity|]. cbn [filter]. destruct (N.eqb_spec 47 x) as [<-|Hx]; [exfalso; apply Hl; left; reflexivity|]. apply IH. intros Hi. apply Hl. right. exact Hi. }
    rewrite (Z p Hp), (Z q Hq). reflexivity.
  - induction t as [|x t IH]; [discriminate|]. cbn [filter]. destruct (N.eqb_spec 47 x) as [<-|Hx].
    + cbn [length]. intros H. exists [], t. split; [reflexivity|]. split; [tauto|]. intros Hi. injection H as H. apply length_zero_iff_nil in H.
      assert (Hf : In 47%N (filter (N.eqb 47) t)) by (apply filter_In; split; [exact Hi|apply N.eqb_refl]). rewrite H in Hf. destruct Hf.
    + intros H. destruct (IH H) as [p [q [-> [Hp Hq]]]]. exists (x :: p), q. split; [reflexivity|]. split; [|exact Hq]. intros [Hi|Hi]; [congruence|contradiction].
Qed.
Lemma lower_const (s : String.string) : is_ascii (L s) = true -> lower (L s) = map ascii_lower_cp (L s).
Proof. intros H. unfold lower. rewrite H. reflexivity. Qed.
Lemma same_field_name : lower (L "content-type") = lower (L "Content-Type").
Proof. rewrite !lower_const by reflexivity. reflexivity. Qed.
Lemma hget_lower m n n' : lower n = lower n' -> hget m n = hget m n'.
Proof. unfold hget. intros ->. reflexivity. Qed.
Lemma stated_type v t : type_stated v t <-> lower (strip (hd [] (split_on 59 v))) = t.
Proof.
  unfold type_stated. split.
  - intros [a [rest [b [Hv [Hn [Hr [Ht ->]]]]]]]. rewrite (proj2 (hd_split v a)) by eauto. apply c78_strip in Ht. rewrite Ht. reflexivity.
  - intros <-. destruct (proj1 (hd_split v _) eq_refl) as [rest [Hv [Hn Hr]]]. eexists _, rest, _. split; [exact Hv|]. split; [exact Hn|]. split; [exact Hr|].
    split; [apply c78_strip; reflexivity|reflexivity].
Qed.
Theorem c79_content_type : forall m t, content_type m t <-> get_content_type m = t.
Proof.
  intros m t. unfold content_type, get_content_type. rewrite (hget_lower m _ _ same_field_name). split.
  - intros [[Hn ->]|[v [t' [Hf [Hs Ho]]]]].
    + apply no_field_get in Hn. rewrite Hn. reflexivity.
    + apply field_get in Hf. rewrite Hf. cbv zeta. apply stated_type in Hs. rewrite Hs. destruct (Nat.eqb_spec (count_cp 47 t') 1) as [Hc|Hc]; rewrite <- slash_count in Hc;
        destruct Ho as [[Ho ->]|[Ho ->]]; congruence || contradiction.
  - intros <-. destruct (hget m (L "Content-Type")) as [v|] eqn:Ef; [right|left; split; [apply no_field_get; exact Ef|reflexivity]].
    cbv zeta. eexists v, _. split; [apply field_get; exact Ef|]. split; [apply stated_type; reflexivity|].
    destruct (Nat.eqb_spec (count_cp 47 (lower (strip (hd [] (split_on 59 v))))) 1) as [Hc|Hc]; rewrite <- slash_count in Hc; auto.
Qed.
Lemma ctype_b m t : text_eqb (get_content_type m) t = true <-> content_type m t.
Proof. rewrite c79_content_type. apply text_eqb_eq. Qed.

(** ** Encrypted mail *)
Lemma encrypted_pgp m : is_encrypted m = Ok true <-> pgp_mime m.
Proof.
  unfold is_encrypted, pgp_mime. destruct (text_eqb (get_content_type m) (L "multipart/encrypted")) eqn:Ec.
  - apply ctype_b in Ec. destruct (m_body m) as [|t|b|[|p [|q [|r l]]]] eqn:Eb;
      try (split; [try (destruct (Nat.eqb _ 2)); discriminate|intros [_ [p' [q' [H _]]]]; discriminate]).
    split.
    + intros H. assert (H' : text_eqb (get_content_type p) (L "application/pgp-encrypted") && text_eqb (get_content_type q) (L "application/octet-stream") = true) by congruence.
      apply andb_prop in H' as [H1 H2]. split; [exact Ec|]. exists p, q. split; [reflexivity|]. split; apply ctype_b; assumption.
    + intros [_ [p' [q' [[= <- <-] [H1 H2]]]]]. apply ctype_b in H1, H2. rewrite H1, H2. reflexivity.
  - split; [discriminate|]. intros [H _]. apply ctype_b in H. congruence.
Qed.
Lemma len2 {A} (l : list A) : length l = 2%nat <-> exists x y, l = [x; y].
Proof. split; [|intros [x [y ->]]; reflexivity]. destruct l as [|x [|y [|]]]; try discriminate. eauto. Qed.
Lemma odd_headless m : (exists e, is_encrypted m = Err e) <-> headless m.
Proof.
  unfold is_encrypted, headless. destruct (text_eqb (get_content_type m) (L "multipart/encrypted")) eqn:Ec.
  - apply ctype_b in Ec. destruct (m_body m) as [|t|b|[|p [|q [|r l]]]] eqn:Eb;
      try (split; [intros [e H]; discriminate|intros [_ [H|[x [y [H|H]]]]]; discriminate]).
    + split; [intros _; split; auto|eauto].
    + destruct (Nat.eqb_spec (length t) 2) as [Hl|Hl].
      * split; [intros _; split; [exact Ec|right]; apply len2 in Hl as [x [y ->]]; eauto|eauto].
      * split; [intros [e H]; discriminate|]. intros [_ [H|[x [y [H|H]]]]]; try discriminate. injection H as ->. exfalso. apply Hl. reflexivity.
    + destruct (Nat.eqb_spec (length b) 2) as [Hl|Hl].
      * split; [intros _; split; [exact Ec|right]; apply len2 in Hl as [x [y ->]]; eauto|eauto].
      * split; [intros [e H]; discriminate|]. intros [_ [H|[x [y [H|H]]]]]; try discriminate. injection H as ->. exfalso. apply Hl. reflexivity.
  - split; [intros [e H]; discriminate|]. intros [H _]. apply ctype_b in H. congruence.
Qed.
Theorem c79_encrypted : forall m, (is_encrypted m = Ok true <-> pgp_mime m) /\
  (is_encrypted m = Ok false <-> ~ pgp_mime m /\ ~ headless m) /\ ((exists e, is_encrypted m = Err e) <-> headless m).
Proof.
  intros m. split; [apply encrypted_pgp|]. split; [|apply odd_headless]. rewrite <- encrypted_pgp, <- odd_headless.
  destruct (is_encrypted m) as [[|]|e]; split; try congruence.
  - intros [H _]. congruence.
  - intros _. split; [congruence|]. intros [e H]; discriminate.
  - intros [_ H]. exfalso. eauto.
Qed.

(** ** Who, when, which *)
Theorem c79_from : forall m x, comes_from m x <-> from_addr m = x.
Proof.
  intros m x. unfold comes_from, from_addr, address. split.
  - intros [[Hn ->]|[v [Hf ->]]]; [apply no_field_get in Hn; rewrite Hn|apply field_get in Hf; rewrite Hf]; reflexivity.
  - intros <-. destruct (hget m (L "From")) as [v|] eqn:Ef; [right; exists v; split; [apply field_get; exact Ef|reflexivity]|left; split; [apply no_field_get; exact Ef|reflexivity]].
Qed.
Theorem c79_address : forall v x, address v x <-> norm v = x.
Proof. intros v x. unfold address, norm, parse_email_addr. split; congruence. Qed.
Theorem c79_date : forall m d, written_at m d <-> dated m d.
Proof.
  intros m d. unfold written_at, dated, date_says, parse_date_to_float, parsedate. split.
  - intros [[Hn ->]|[v [Hf H]]]; [apply no_field_get in Hn; rewrite Hn; reflexivity|]. apply field_get in Hf. rewrite Hf.
    destruct H as [[-> ->]|[civil [zone [-> H]]]]; [reflexivity|]. cbn [option_map fst]. destruct H as [->|[-> ->]]; reflexivity.
  - destruct (hget m (L "Date")) as [v|] eqn:Ef.
    + intros H. right. exists v. split; [apply field_get; exact Ef|]. destruct (parsedate_tz v) as [[civil zone]|]; cbn in H.
      * right. exists civil, zone. split; [reflexivity|]. destruct (mktime civil) as [z|e]; [left; congruence|]. destruct e; try discriminate. right. split; [reflexivity|congruence].
      * left. split; [reflexivity|congruence].
    + intros H. left. split; [apply no_field_get; exact Ef|congruence].
Qed.
Theorem c79_id : forall m i, id_of m i <-> msg_id_text m = i.
Proof.
  intros m i. unfold id_of, msg_id_text. split.
  - intros [[Hn ->]|Hf]; [apply no_field_get in Hn; rewrite Hn; reflexivity|apply field_get in Hf; rewrite Hf; reflexivity].
  - intros <-. destruct (hget m (L "Message-Id")) as [v|] eqn:Ef; [right; apply field_get; exact Ef|left; split; [apply no_field_get; exact Ef|reflexivity]].
Qed.
Lemma to_name : lower (L "To") = lower (L "to"). Proof. rewrite !lower_const by reflexivity. reflexivity. Qed.
Lemma cc_name : lower (L "Cc") = lower (L "cc"). Proof. rewrite !lower_const by reflexivity. reflexivity. Qed.
Lemma goes_targets m y : goes_to m y <-> In y (targets m).
Proof.
  unfold goes_to, targets. split.
  - intros [tos [ccs [name [Ht [Hc Hi]]]]]. apply fields_get in Ht, Hc. unfold hget_all in *. rewrite to_name in Ht. rewrite cc_name in Hc. rewrite Ht, Hc.
    apply in_map_iff. exists (name, y). auto.
  - intros H. apply in_map_iff in H as [[name y'] [<- Hi]]. do 3 eexists. split; [apply fields_get; reflexivity|]. split; [apply fields_get; reflexivity|].
    unfold hget_all in *. rewrite to_name, cc_name. exact Hi.
Qed.
Theorem c79_to : forall m y, (goes_to m y <-> In y (targets m)) /\ (goes_to m y <-> In y (get_target_emailadr m)).
Proof. intros m y. split; apply goes_targets. Qed.

(** ** Opened mail *)
Lemma outerr_ret g args inp tmp strict dec s s' out err : arun (gpg_outerr g args inp tmp strict dec) s = (s', Ok (out, err)) ->
  g_ret (snd (gpg (before_ring s g args) (full_argv g args) inp tmp)) = 0%Z.
Proof.
  intros H. unfold gpg_outerr in H. apply arun_bind_ok in H as [s1 [res [H1 H2]]].
  unfold arun in H1. cbn [perform run astep] in H1. change ([gp_path g; L "--batch"] ++ homedirflags g ++ args) with (full_argv g args) in H1.
  change (ring_at (a_rings s) (argv_home (full_argv g args))) with (before_ring s g args) in H1.
  destruct (gpg (before_ring s g args) (full_argv g args) inp tmp) as [r' res']. injection H1 as <- <-. cbn [snd].
  destruct (Z.eqb (g_ret res') 130) eqn:E1; [discriminate|].
  destruct (utf8 (g_err res')) as [er|]; [|discriminate].
  destruct (if dec then utf8 (g_out res') else Some (g_out res')) as [o|]; [|discriminate].
  destruct (Z.eqb_spec (g_ret res') 0) as [Hz|Hz]; [exact Hz|]. cbn [negb orb] in H2. discriminate.
Qed.
Lemma kept_filter h ks : kept_fields h ks <-> filter (fun kv => negb (named mime_headers kv)) h = ks.
Proof.
  assert (D : forall k v, named mime_headers (k, v) = true <-> describes_body k) by (intros k v; apply mem_text_In).
  split.
  - induction 1 as [|k v hs ks Hk _ IH|k v hs ks Hk _ IH]; cbn [filter]; [reflexivity| |].
    + destruct (named mime_headers (k, v)) eqn:En; [apply D in En; contradiction|]. cbn [negb]. rewrite IH. reflexivity.
    + rewrite (proj2 (D k v) Hk). exact IH.
  - intros <-. induction h as [|[k v] h IH]; cbn [filter]; [constructor|]. destruct (named mime_headers (k, v)) eqn:En; cbn [negb].
    + apply K_left; [apply (D k v); exact En|exact IH].
    + apply K_kept; [intros Hd; apply (D k v) in Hd; congruence|exact IH].
Qed.
Theorem c79_opened : forall m data, with_outer m (parse_bytes data) (opened_as m data).
Proof.
  intros m data. destruct (opened_headers m data) as [Hb Hh]. split; [exact Hb|]. exists (outer_headers m). split; [apply kept_filter; reflexivity|exact Hh].
Qed.
Theorem c79_opens : forall a m content, opens a m content ->
  exists p q enc argv r, m_body m = PParts [p; q] /\ (m_body q = PStr enc \/ m_body q = PBytes enc) /\ decrypt_command argv /\
    g_ret (snd (gpg r argv (Some enc) None)) = 0%Z /\ g_out (snd (gpg r argv (Some enc) None)) = content.
Proof.
  intros a m content [s [g [enc [s' [infos [_ [Hc H]]]]]]]. unfold cipher_of in Hc. destruct (m_body m) as [| | |[|p [|q [|]]]]; try discriminate.
  destruct (arun (gpg_decrypt g enc) s') as [s2 r2] eqn:Ea. cbn [snd] in H. subst r2.
  unfold gpg_decrypt, version_known in Ea. apply arun_bind_ok in Ea as [sv [v [Hv Ea]]]. apply arun_lift_ok in Hv as [-> _].
  apply arun_bind_ok in Ea as [s3 [[out err] [H1 Ea]]]. apply arun_bind_ok in Ea as [s4 [inf' [H2 Ea]]]. apply arun_lift_ok in H2 as [-> _]. apply arun_ret_ok in Ea as [-> [= -> ->]].
  pose proof H1 as H0. apply outerr_exact in H0. cbv zeta in H0. destruct H0 as [_ [_ H0]]. injection H0 as H0.
  eexists p, q, enc, _, _. split; [reflexivity|]. split; [destruct (m_body q); try discriminate; injection Hc as ->; auto|].
  split; [apply decrypt_argv_command|]. split; [|exact H0].
  exact (outerr_ret _ _ _ _ _ _ _ _ _ _ H1).
Qed.

(** ** Mail that goes out, in these words *)
Theorem c79_not_in_the_clear : forall s a m o, reachable s -> answer s (AOutgoing a m) = Ok (OOutgoing o) ->
  control m = Some (L "yes") \/ (control m <> Some (L "no") /\ recommended s a (others m) false (L "encrypt")) ->
  pgp_mime (out_msg o) /\
  ((pgp_mime m /\ m_body (out_msg o) = m_body m) \/
   exists p q khs own clear data enc, m_body (out_msg o) = PParts [p; q] /\ m_body p = PStr (L "version: 1") /\ m_body q = PBytes enc /\
     m_body clear = m_body m /\ flatten clear = Ok data /\ gpg_encrypted s (after s (AOutgoing a m)) khs own data enc).
Proof.
  intros s a m o Hr H Hc. destruct (c29 s a m o Hr H Hc) as [H1 H2]. rewrite encrypted_pgp in *. split; [exact H1|].
  destruct H2 as [H2|[khs [own [clear [data [enc [H2 H3]]]]]]]; [left; exact H2|right].
  eexists _, _, khs, own, clear, data, enc. split; [exact H2|]. split; [reflexivity|]. split; [reflexivity|exact H3].
Qed.

(** ** Which key of a peer counts *)
Theorem c80 : forall s a x v, reachable s -> peer_of s a x = Some v ->
  key_counts v (pv_keyhandle v) (pv_keydata v) (pv_pref v) /\
  (pv_direct v = true <-> exists e, importable v e) /\
  (forall e, pv_entry v = Some (inl e) <-> importable v e) /\
  (forall g, pv_entry v = Some (inr g) <-> (forall e, ~ importable v e) /\ pv_latest_gossip v = Some g) /\
  (pv_ac_timestamp v = match pv_latest_ac v with Some e => me_date e | None => 0%Z end) /\
  (forall e, pv_latest_ac v = Some e -> me_keydata e <> []).
Proof.
  intros s a x v Hr H. apply peer_of_some in H as [_ ->]; [|apply reachable_WF; exact Hr].
  set (l := peer_log s a (norm x)). unfold importable, key_counts, view_of.
  cbn [pv_keyhandle pv_keydata pv_pref pv_direct pv_entry pv_latest_ac pv_latest_gossip pv_ac_timestamp].
  unfold public_keyhandle, public_keydata, peer_prefer_encrypt, entry_for_encryption, has_direct_key, autocrypt_timestamp.
  assert (K : forall e, latest_ac_entry l = Some e -> me_keydata e <> []).
  { intros e He. apply find_some in He as [_ He]. apply nonempty_true. exact He. }
  destruct (latest_ac_entry l) as [e|] eqn:El.
  - destruct (me_kh e) as [|c kh] eqn:Ek; cbn [nonempty option_map].
    + assert (Z : forall e', ~ (Some e = Some e' /\ me_kh e' <> [])) by (intros e' [[= <-] H]; congruence).
      split; [right|split; [|split; [|split; [|split; [reflexivity|exact K]]]]].
      * destruct (latest_gossip_entry l) as [g|]; cbn; [left; split; [exact Z|exists g; repeat split]|right; repeat split; exact Z].
      * split; [discriminate|]. intros [e' H]. exfalso. exact (Z e' H).
      * intros e'. split; [destruct (latest_gossip_entry l); discriminate|]. intros H. exfalso. exact (Z e' H).
      * intros g. destruct (latest_gossip_entry l) as [g'|]; cbn; split; try discriminate.
        -- intros [= <-]. split; [exact Z|reflexivity].
        -- intros [_ [= <-]]. reflexivity.
        -- intros [_ H]. discriminate.
    + assert (Y : Some e = Some e /\ me_kh e <> []) by (split; [reflexivity|congruence]).
      split; [left|split; [|split; [|split; [|split; [reflexivity|exact K]]]]].
      * exists e. split; [exact Y|]. split; [reflexivity|]. split; reflexivity.
      * split; [exists e; exact Y|reflexivity].
      * intros e'. split; [intros [= <-]; exact Y|intros [[= <-] _]; reflexivity].
      * intros g. split; [discriminate|]. intros [H _]. exfalso. exact (H e Y).
  - assert (Z : forall e', ~ (None = Some e' /\ me_kh e' <> [])) by (intros e' [H _]; discriminate).
    split; [right|split; [|split; [|split; [|split; [reflexivity|exact K]]]]]; cbn [option_map].
    + destruct (latest_gossip_entry l) as [g|]; cbn; [left; split; [exact Z|exists g; repeat split]|right; repeat split; exact Z].
    + split; [discriminate|]. intros [e' H]. exfalso. exact (Z e' H).
    + intros e'. split; [destruct (latest_gossip_entry l); discriminate|]. intros H. exfalso. exact (Z e' H).
    + intros g. destruct (latest_gossip_entry l) as [g'|]; cbn; split; try discriminate.
      * intros [= <-]. split; [exact Z|reflexivity].
      * intros [_ [= <-]]. reflexivity.
      * intros [_ H]. discriminate.
Qed.
End VocabProofs.
