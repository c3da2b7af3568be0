(** Key listings and the keys that gpg names on stderr (C72, C73). *)
From Verif Require Import Base PyStr Env Prog Chain Gpg Mime States Recommendation Account Cmdline Bot Fs Api Steps StepFacts Exec ApiScope
  Spec Obs PeerSpec OutSpec AcctSpec PeerFacts Quiet OutProofs AcctFacts ImportProofs CliSpec CliProofs3 GpgSpec KeySpec.

Section KeyText.
Context {E : Env}.

(** ** Key listings *)
Lemma parse_line_types t0 t1 acc line acc' : t0 <> L "uid" -> t1 <> L "uid" -> parse_line t0 t1 acc line = Ok acc' ->
  match line_record t0 t1 line with
  | RPub i u => acc' = KeyInfo i (given u) true :: acc
  | RSub i u => acc' = KeyInfo i (given u) false :: acc
  | RUid u => acc' = add_uid acc u
  | ROther => acc' = acc
  end.
Proof.
  intros _ _. unfold parse_line, line_record. cbv zeta. replace (hd [] (split_on 58 line)) with (nth 0 (split_on 58 line) []) by (destruct (split_on 58 line); reflexivity).
  set (ps := split_on 58 line). destruct (text_eqb (nth 0 ps []) t0) eqn:E1; cbn [orb].
  - destruct (nth_error ps 3), (nth_error ps 2); try discriminate. destruct (py_int_ok _); [|discriminate].
    destruct (nth_error ps 9) as [u|] eqn:E9; [|discriminate]. destruct (nth_error ps 4) as [i|] eqn:E4; [|discriminate]. destruct (nth_error ps 5); [|discriminate].
    apply nth_error_default in E9, E4. rewrite E9, E4, given_if. congruence.
  - destruct (text_eqb (nth 0 ps []) t1) eqn:E2; cbn [orb].
    + destruct (nth_error ps 3), (nth_error ps 2); try discriminate. destruct (py_int_ok _); [|discriminate].
      destruct (nth_error ps 9) as [u|] eqn:E9; [|discriminate]. destruct (nth_error ps 4) as [i|] eqn:E4; [|discriminate]. destruct (nth_error ps 5); [|discriminate].
      apply nth_error_default in E9, E4. rewrite E9, E4, given_if. congruence.
    + destruct (text_eqb (nth 0 ps []) (L "uid")); [|congruence]. destruct (existsb ki_main acc); [|discriminate].
      destruct (nth_error ps 9) as [u|] eqn:E9; [|discriminate]. apply nth_error_default in E9. rewrite E9. congruence.
Qed.
Lemma parse_types t0 t1 lines : t0 <> L "uid" -> t1 <> L "uid" -> forall acc l, parse_lines t0 t1 acc lines = Ok l ->
  l = rev (extend acc (until_pub (map (line_record t0 t1) lines))) ++ infos_of (map (line_record t0 t1) lines).
Proof.
  intros N0 N1. induction lines as [|line lines IH]; intros acc l; cbn [parse_lines map until_pub infos_of].
  { intros [= <-]. rewrite app_nil_r. reflexivity. }
  destruct (parse_line _ _ acc line) as [acc'|] eqn:Ep; [|discriminate]. cbn [rbind]. intros H. apply IH in H.
  apply parse_line_types in Ep; auto. destruct (line_record t0 t1 line) as [i u|i u|u|]; subst acc' l.
  - rewrite extend_main. cbn [rev]. rewrite <- app_assoc. reflexivity.
  - rewrite extend_sub. cbn [rev]. rewrite <- app_assoc. reflexivity.
  - reflexivity.
  - reflexivity.
Qed.
Lemma infos_keys rs : map (fun k => (ki_id k, ki_uids k)) (infos_of rs) = listed_keys rs.
Proof. induction rs as [|[i u|i u|u|] rs IH]; cbn [infos_of listed_keys map ki_id ki_uids]; congruence. Qed.
Lemma parse_keys t0 t1 out l : t0 <> L "uid" -> t1 <> L "uid" -> parse_lines t0 t1 [] (splitlines out) = Ok l ->
  map (fun k => (ki_id k, ki_uids k)) l = keys_in t0 t1 out.
Proof.
  intros N0 N1 H. apply parse_types in H; auto. rewrite H. unfold extend.
  assert (Hz : forall us, fold_left add_uid us [] = []) by (induction us; auto). rewrite Hz. cbn [rev app]. apply infos_keys.
Qed.

(** ** Finding a key *)
Lemma find_first {A B} (f : A -> bool) (P : B -> Prop) (v : A -> B) l k : (forall x, f x = true <-> P (v x)) -> find f l = Some k -> first_such P (map v l) (v k).
Proof.
  intros Hf. induction l as [|x l IH]; cbn [find map]; [discriminate|]. destruct (f x) eqn:Ex.
  - intros [= <-]. exists [], (map v l). split; [reflexivity|]. split; [apply Hf, Ex|constructor].
  - intros H. destruct (IH H) as [l1 [l2 [-> [H1 H2]]]]. exists (v x :: l1), l2. split; [reflexivity|]. split; [exact H1|].
    constructor; [|exact H2]. intros Hp. apply Hf in Hp. congruence.
Qed.
Lemma suffix_length i s : (0 < i <= length s)%nat -> exists x, s = x ++ suffix_slice i s /\ length (suffix_slice i s) = i.
Proof.
  intros H. unfold suffix_slice. destruct i as [|i]; [lia|]. exists (firstn (length s - S i) s).
  split; [symmetry; apply firstn_skipn|]. rewrite skipn_length. lia.
Qed.
Lemma suffix_all s : suffix_slice (length s) s = s.
Proof. unfold suffix_slice. destruct s as [|c s]; [reflexivity|]. cbn [length]. rewrite Nat.sub_diag. reflexivity. Qed.
Lemma suffix_app x t : t <> [] -> suffix_slice (length t) (x ++ t) = t.
Proof.
  intros H. unfold suffix_slice. destruct t as [|c t]; [congruence|]. rewrite app_length, Nat.add_sub. cbn [length].
  rewrite skipn_app, skipn_all, Nat.sub_diag. reflexivity.
Qed.
Lemma ki_match_spec id h : ki_match id h = true <-> same_key_id id h.
Proof.
  unfold ki_match, same_key_id, ends_like. cbv zeta. destruct (text_eqb_spec (lower (suffix_slice (Nat.min (length h) (length id)) id)) (lower (suffix_slice (Nat.min (length h) (length id)) h))) as [He|He].
  - split; [intros _|reflexivity]. destruct h as [|c h]; [right; right; split; [auto|exact He]|]. destruct id as [|d id]; [right; right; split; [auto|exact He]|].
    destruct (Nat.le_ge_cases (length (c :: h)) (length (d :: id))) as [Hl|Hl].
    + left. split; [discriminate|]. rewrite Nat.min_l in He by exact Hl. rewrite suffix_all in He.
      destruct (suffix_length (length (c :: h)) (d :: id)) as [x [H1 H2]]; [cbn [length] in *; lia|]. exists x, (suffix_slice (length (c :: h)) (d :: id)). auto.
    + right; left. split; [discriminate|]. rewrite Nat.min_r in He by exact Hl. rewrite suffix_all in He.
      destruct (suffix_length (length (d :: id)) (c :: h)) as [x [H1 H2]]; [cbn [length] in *; lia|]. exists x, (suffix_slice (length (d :: id)) (c :: h)). auto.
  - split; [discriminate|]. intros [[Hn [x [t [-> [Hl Ht]]]]]|[[Hn [x [t [-> [Hl Ht]]]]]|[Hn Ht]]]; exfalso; apply He.
    + rewrite app_length, Nat.min_l by lia. rewrite suffix_all, <- Hl. destruct t; [destruct h; [congruence|discriminate]|]. rewrite suffix_app by discriminate. exact Ht.
    + rewrite app_length, Nat.min_r by lia. rewrite suffix_all, <- Hl. destruct t; [destruct id; [congruence|discriminate]|]. rewrite suffix_app by discriminate. auto.
    + destruct Hn as [->| ->]; cbn [length]; [rewrite Nat.min_0_r|rewrite Nat.min_0_l]; exact Ht.
Qed.
Lemma named_spec h k : existsb (contains h) (ki_uids k) || ki_match (ki_id k) h = true <-> named_by h (ki_id k, ki_uids k).
Proof.
  unfold named_by. cbn [fst snd]. rewrite orb_true_iff, existsb_exists, ki_match_spec. split; intros [H|H]; auto; left.
  - destruct H as [u [H1 H2]]. apply contains_occurs in H2. destruct H2 as [x [y H2]]. exists u, x, y. auto.
  - destruct H as [u [x [y [H1 H2]]]]. exists u. split; [exact H1|]. apply contains_occurs. exists x, y. exact H2.
Qed.

(** ** Keys named on stderr *)
Lemma hex_cp_is c : hex_cp c = is_hex c. Proof. reflexivity. Qed.
Lemma span_hex_spec s : exists rest, s = span_hex s ++ rest /\ Forall (fun c => hex_cp c = true) (span_hex s) /\ (forall c r, rest = c :: r -> hex_cp c = false).
Proof.
  induction s as [|c s [rest [H1 [H2 H3]]]]; cbn [span_hex]; [exists []; split; [reflexivity|split; [constructor|discriminate]]|].
  destruct (is_hex c) eqn:Ec.
  - exists rest. split; [cbn [app]; congruence|]. split; [constructor; [exact Ec|exact H2]|exact H3].
  - exists (c :: s). split; [reflexivity|]. split; [constructor|]. intros d r [= <- _]. exact Ec.
Qed.
Lemma span_hex_app x rest : (forall c, In c x -> hex_cp c = true) -> (forall c r, rest = c :: r -> hex_cp c = false) -> span_hex (x ++ rest) = x.
Proof.
  intros Hx Hr. induction x as [|c x IH]; cbn [app span_hex].
  - destruct rest as [|c r]; [reflexivity|]. cbn [span_hex]. rewrite <- hex_cp_is, (Hr c r eq_refl). reflexivity.
  - rewrite <- hex_cp_is, (Hx c) by (left; reflexivity). f_equal. apply IH. intros d Hd. apply Hx. right. exact Hd.
Qed.
Lemma startswith_app p s : startswith p s = true <-> exists r, s = p ++ r.
Proof.
  revert s. induction p as [|c p IH]; intros s; cbn [startswith app]; [split; [eauto|reflexivity]|].
  destruct s as [|d s]; [split; [discriminate|intros [r Hr]; discriminate]|]. rewrite andb_true_iff, IH, N.eqb_eq.
  split; [intros [-> [r ->]]; eauto|intros [r [= -> ->]]; eauto].
Qed.
Lemma match_key_spec t x : match_key_at t = Some x <-> mention t x.
Proof.
  unfold match_key_at, mention. destruct (startswith (L "key ") t) eqn:Es.
  - apply startswith_app in Es as [r ->]. change (skipn 4 (L "key " ++ r)) with r.
    assert (Hx : forall y, nonempty y = true -> Forall (fun c => hex_cp c = true) y -> all_of hex_cp y).
    { intros y Hn Hy. rewrite Forall_forall in Hy. split; [destruct y; [discriminate Hn|discriminate]|exact Hy]. }
    assert (Hn : forall y : text, y <> [] -> nonempty y = true) by (intros [|]; [congruence|reflexivity]).
    destruct (startswith (L "ID ") r) eqn:Ei.
    + apply startswith_app in Ei as [r' ->]. change (skipn 3 (L "ID " ++ r')) with r'.
      change (span_hex (L "ID " ++ r')) with (@nil N). cbn [nonempty].
      destruct (nonempty (span_hex r')) eqn:En.
      * destruct (span_hex_spec r') as [rest [H1 [H2 H3]]]. split.
        -- intros [= <-]. exists (L "ID "), rest. split; [auto|]. split; [rewrite <- H1; reflexivity|]. auto.
        -- intros [id [rest' [[->| ->] [H4 [[H5 H6] H7]]]]].
           ++ exfalso. apply app_inv_head in H4. cbn [app] in H4. destruct x as [|c x]; [congruence|]. injection H4 as <- _. specialize (H6 _ (or_introl eq_refl)). discriminate H6.
           ++ apply app_inv_head in H4. apply app_inv_head in H4. rewrite H4, span_hex_app by auto. reflexivity.
      * split; [discriminate|]. intros [id [rest' [[->| ->] [H4 [[H5 H6] H7]]]]]; exfalso; apply app_inv_head in H4.
        -- cbn [app] in H4. destruct x as [|c x]; [congruence|]. injection H4 as <- _. specialize (H6 _ (or_introl eq_refl)). discriminate H6.
        -- apply app_inv_head in H4. rewrite H4, span_hex_app in En by auto. rewrite Hn in En by exact H5. discriminate.
    + cbn [nonempty]. destruct (nonempty (span_hex r)) eqn:En.
      * destruct (span_hex_spec r) as [rest [H1 [H2 H3]]]. split.
        -- intros [= <-]. exists [], rest. split; [auto|]. split; [cbn [app]; rewrite <- H1; reflexivity|]. auto.
        -- intros [id [rest' [[->| ->] [H4 [[H5 H6] H7]]]]]; apply app_inv_head in H4.
           ++ cbn [app] in H4. rewrite H4, span_hex_app by auto. reflexivity.
           ++ exfalso. assert (startswith (L "ID ") r = true) by (apply startswith_app; eauto). congruence.
      * split; [discriminate|]. intros [id [rest' [[->| ->] [H4 [[H5 H6] H7]]]]]; exfalso; apply app_inv_head in H4.
        -- cbn [app] in H4. rewrite H4, span_hex_app in En by auto. rewrite Hn in En by exact H5. discriminate.
        -- assert (startswith (L "ID ") r = true) by (apply startswith_app; eauto). congruence.
  - split; [discriminate|]. intros [id [rest [_ [-> _]]]]. exfalso.
    assert (startswith (L "key ") (L "key " ++ id ++ x ++ rest) = true) by (apply startswith_app; eauto). congruence.
Qed.
Lemma search_spec err : forall x, search_key err = Some x -> first_mention err x.
Proof.
  induction err as [|c err IH]; intros x H.
  - cbn in H. discriminate.
  - cbn [search_key] in H. destruct (match_key_at (c :: err)) as [h|] eqn:Em.
    + injection H as <-. apply match_key_spec in Em. exists [], (c :: err). split; [reflexivity|]. split; [exact Em|]. intros. cbn [length]. lia.
    + destruct (IH x H) as [pre [t [-> [H1 H2]]]]. exists (c :: pre), t. split; [reflexivity|]. split; [exact H1|].
      intros [|d pre'] t' x' He Hm.
      * cbn [app] in He. subst t'. apply match_key_spec in Hm. congruence.
      * injection He as -> He. cbn [length]. specialize (H2 _ _ _ He Hm). lia.
Qed.
End KeyText.
