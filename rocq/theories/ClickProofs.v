(** Proofs of C84. *)
From Verif Require Import Base PyStr Env Prog Chain Gpg Mime States Recommendation Account Cmdline Bot Fs Api Steps Spec PeerSpec RecSpec OutSpec AcctSpec MimeTree
  Commands CmdSpec CmdProofs CmdProofs2 BotCommand BotSpec Click ClickSpec.

(** ** Words *)
Lemma cut_eq_none w n : cut_eq w = (n, None) <-> n = w /\ ~ In 61%N w.
Proof.
  revert n. induction w as [|c w IH]; intros n; cbn [cut_eq].
  - split; [intros [= <-]; split; [reflexivity|intros []]|intros [-> _]; reflexivity].
  - destruct (N.eqb_spec c 61) as [->|Hc].
    + split; [discriminate|intros [_ H]; destruct H; left; reflexivity].
    + destruct (cut_eq w) as [m v]. split.
      * intros [= <- ->]. destruct (proj1 (IH m) eq_refl) as [-> H]. split; [reflexivity|]. intros [H'|H']; [congruence|auto].
      * intros [-> H]. assert (Hw : (m, v) = (w, None)) by (apply IH; split; [reflexivity|intros H'; apply H; right; exact H']).
        injection Hw as -> ->. reflexivity.
Qed.
Lemma cut_eq_some w n x : cut_eq w = (n, Some x) <-> w = n ++ 61%N :: x /\ ~ In 61%N n.
Proof.
  revert n. induction w as [|c w IH]; intros n; cbn [cut_eq].
  - split; [discriminate|intros [H _]; destruct n; discriminate].
  - destruct (N.eqb_spec c 61) as [->|Hc].
    + split; [intros [= <- <-]; split; [reflexivity|intros []]|].
      intros [H1 H2]. destruct n as [|d n]; [injection H1 as ->; reflexivity|]. injection H1 as <- _. destruct H2. left. reflexivity.
    + destruct (cut_eq w) as [m v]. split.
      * intros [= <- ->]. destruct (proj1 (IH m) eq_refl) as [-> H]. split; [reflexivity|]. intros [H'|H']; [congruence|auto].
      * intros [H1 H2]. destruct n as [|d n]; [injection H1 as -> _; congruence|]. injection H1 as <- H1.
        assert (Hw : (m, v) = (n, Some x)) by (apply IH; split; [exact H1|intros H'; apply H2; right; exact H']).
        injection Hw as -> ->. reflexivity.
Qed.

Lemma like_opt_plain w : like_opt w = false -> plain_word w.
Proof.
  destruct w as [|c [|d w]]; cbn [like_opt]; intros H.
  - right. intros r. discriminate.
  - destruct (N.eq_dec c 45) as [->|Hc]; [left; reflexivity|right; intros r [= ->]; apply Hc; reflexivity].
  - right. intros r H'. injection H' as ->. discriminate.
Qed.
Lemma plain_like_opt w : plain_word w -> like_opt w = false /\ w <> L "--".
Proof.
  intros [->|H]; [split; [reflexivity|discriminate]|].
  split; [|intros ->; apply (H (L "-")); reflexivity].
  destruct w as [|c [|d w]]; try reflexivity. cbn [like_opt]. apply N.eqb_neq. intros ->. apply (H (d :: w)). reflexivity.
Qed.
Lemma like_opt_cons w : like_opt w = true -> exists c r, w = 45%N :: c :: r.
Proof. destruct w as [|a [|c r]]; cbn [like_opt]; try discriminate. intros H. apply N.eqb_eq in H as ->. exists c, r. reflexivity. Qed.

(** ** Options by name *)
Definition lookup (d : decl) (n : text) : option opt := find (fun o => mem_text n (o_names o)) (d_opts d).
Definition good_name (n : text) : bool :=
  is_short n || (startswith (L "--") n && negb (text_eqb n (L "--")) && negb (existsb (N.eqb 61) n)).
Definition good_decl (d : decl) : bool := forallb (fun o => forallb good_name (o_names o)) (d_opts d).
Definition all_names (d : decl) : list text := concat (map o_names (d_opts d)).
Definition flags_of (d : decl) : list text :=
  filter (fun n => match lookup d n with Some o => negb (o_takes o) | None => false end) (all_names d).
Definition valued_of (d : decl) : list text :=
  filter (fun n => match lookup d n with Some o => o_takes o | None => false end) (all_names d).
Definition param_of (d : decl) (n : text) : text := match lookup d n with Some o => o_param o | None => [] end.
Definition renamed (d : decl) (os : settings) : settings := map (fun o => (param_of d (fst o), snd o)) os.

Lemma lookup_in d n o : lookup d n = Some o -> In o (d_opts d) /\ In n (o_names o).
Proof. intros H. apply find_some in H as [H1 H2]. apply mem_text_In in H2. auto. Qed.
Lemma lookup_names d n o : lookup d n = Some o -> In n (all_names d).
Proof.
  intros H. apply lookup_in in H as [H1 H2]. unfold all_names. apply in_concat. exists (o_names o). split; [apply in_map; exact H1|exact H2].
Qed.
Lemma in_flags d n : In n (flags_of d) <-> exists o, lookup d n = Some o /\ o_takes o = false.
Proof.
  unfold flags_of. rewrite filter_In. split.
  - intros [_ H]. destruct (lookup d n) as [o|]; [|discriminate]. exists o. split; [reflexivity|]. destruct (o_takes o); [discriminate|reflexivity].
  - intros [o [H1 H2]]. rewrite H1, H2. split; [eapply lookup_names; exact H1|reflexivity].
Qed.
Lemma in_valued d n : In n (valued_of d) <-> exists o, lookup d n = Some o /\ o_takes o = true.
Proof.
  unfold valued_of. rewrite filter_In. split.
  - intros [_ H]. destruct (lookup d n) as [o|]; [|discriminate]. exists o. auto.
  - intros [o [H1 H2]]. rewrite H1, H2. split; [eapply lookup_names; exact H1|reflexivity].
Qed.
Lemma good_lookup d n o : good_decl d = true -> lookup d n = Some o -> good_name n = true.
Proof.
  intros Hg H. apply lookup_in in H as [H1 H2]. unfold good_decl in Hg. rewrite forallb_forall in Hg.
  specialize (Hg o H1). rewrite forallb_forall in Hg. apply Hg. exact H2.
Qed.
Lemma find_ext' {A} (f g : A -> bool) l : (forall x, f x = g x) -> find f l = find g l.
Proof. intros H. induction l as [|x l IH]; cbn [find]; [reflexivity|]. rewrite H, IH. reflexivity. Qed.
Lemma mem_exists n l (p : text -> bool) : p n = true -> existsb (fun m => p m && text_eqb m n) l = mem_text n l.
Proof.
  intros Hp. unfold mem_text. induction l as [|m l IH]; cbn [existsb]; [reflexivity|]. rewrite IH. f_equal.
  destruct (text_eqb m n) eqn:Em.
  - apply text_eqb_eq in Em as ->. rewrite Hp, text_eqb_refl. reflexivity.
  - rewrite andb_false_r. symmetry. destruct (text_eqb n m) eqn:En; [|reflexivity]. apply text_eqb_eq in En as ->. rewrite text_eqb_refl in Em. discriminate.
Qed.
Lemma find_long_lookup d n : is_short n = false -> find_long (d_opts d) n = lookup d n.
Proof. intros H. unfold find_long, lookup. apply find_ext'. intros o. apply (mem_exists n (o_names o) (fun m => negb (is_short m))). rewrite H. reflexivity. Qed.
Lemma is_short_letter c : is_short (letter c) = negb (N.eqb c 45).
Proof. reflexivity. Qed.
Lemma find_short_lookup d c : c <> 45%N -> find_short (d_opts d) c = lookup d (letter c).
Proof.
  intros H. unfold find_short, lookup. apply find_ext'. intros o. apply (mem_exists (letter c) (o_names o) is_short).
  rewrite is_short_letter. apply N.eqb_neq in H. rewrite H. reflexivity.
Qed.
Lemma existsb_none {A} (f : A -> bool) l : (forall x, f x = false) -> existsb f l = false.
Proof. intros H. induction l as [|x l IH]; cbn [existsb]; [reflexivity|]. rewrite H, IH. reflexivity. Qed.
Lemma find_none' {A} (f : A -> bool) l : (forall x, f x = false) -> find f l = None.
Proof. intros H. induction l as [|x l IH]; cbn [find]; [reflexivity|]. rewrite H. exact IH. Qed.
Lemma find_short_dash d : find_short (d_opts d) 45 = None.
Proof.
  unfold find_short. apply find_none'. intros o. apply existsb_none. intros m. destruct (is_short m) eqn:Em; [|reflexivity]. cbn [andb].
  destruct (text_eqb m [45%N; 45%N]) eqn:E; [|reflexivity]. apply text_eqb_eq in E as ->. discriminate.
Qed.
Lemma find_long_short d n : is_short n = true -> find_long (d_opts d) n = None.
Proof.
  intros H. unfold find_long. apply find_none'. intros o. apply existsb_none. intros m. destruct (text_eqb m n) eqn:E; [|apply andb_false_r].
  apply text_eqb_eq in E as ->. rewrite H. reflexivity.
Qed.
Lemma startswith_app p s : startswith p s = true <-> exists r, s = p ++ r.
Proof.
  revert s. induction p as [|c p IH]; intros s; cbn [startswith app]; [split; [intros _; exists s; reflexivity|reflexivity]|].
  destruct s as [|a s]; [split; [discriminate|intros [r H]; discriminate]|]. rewrite andb_true_iff, N.eqb_eq, IH. split.
  - intros [-> [r ->]]. exists r. reflexivity.
  - intros [r H]. injection H as -> ->. split; [reflexivity|exists r; reflexivity].
Qed.
Lemma good_long d n o : good_decl d = true -> find_long (d_opts d) n = Some o -> lookup d n = Some o /\ long_name n /\ ~ In 61%N n.
Proof.
  intros Hg H. destruct (is_short n) eqn:Es; [rewrite find_long_short in H by exact Es; discriminate|].
  rewrite find_long_lookup in H by exact Es. split; [exact H|]. apply good_lookup in H; [|exact Hg]. unfold good_name in H. rewrite Es in H.
  cbn [orb] in H. apply andb_true_iff in H as [H H3]. apply andb_true_iff in H as [H1 H2]. apply startswith_app in H1 as [r ->].
  split.
  - exists r. split; [reflexivity|]. intros ->. discriminate.
  - intros H. apply Bool.negb_true_iff in H3. rewrite <- not_true_iff_false in H3. apply H3. apply existsb_exists. exists 61%N. auto.
Qed.
Lemma long_lookup d n o : good_decl d = true -> long_name n -> lookup d n = Some o -> find_long (d_opts d) n = Some o /\ ~ In 61%N n.
Proof.
  intros Hg [r [-> Hr]] H. assert (Es : is_short (L "--" ++ r) = false) by (destruct r; [congruence|reflexivity]).
  assert (H' : find_long (d_opts d) (L "--" ++ r) = Some o) by (rewrite find_long_lookup by exact Es; exact H).
  split; [exact H'|]. apply (good_long d _ o Hg H').
Qed.
Lemma short_lookup d c o : good_decl d = true -> lookup d (letter c) = Some o -> c <> 45%N /\ find_short (d_opts d) c = Some o.
Proof.
  intros Hg H. assert (Hc : c <> 45%N).
  { intros ->. apply good_lookup in H; [|exact Hg]. discriminate. }
  split; [exact Hc|]. rewrite find_short_lookup by exact Hc. exact H.
Qed.
Lemma found_short d c o : find_short (d_opts d) c = Some o -> c <> 45%N /\ lookup d (letter c) = Some o.
Proof.
  intros H. assert (Hc : c <> 45%N) by (intros ->; rewrite find_short_dash in H; discriminate).
  split; [exact Hc|]. rewrite find_short_lookup in H by exact Hc. exact H.
Qed.

(** ** Letters *)
Definition letter_flags (cs : text) : list (text * option text) := map (fun c => (letter c, None)) cs.
Lemma short_opts_sound d cs os unknown wants : d_ignore d = false -> short_opts d cs = Some (os, unknown, wants) ->
  unknown = [] /\ exists fs, Forall (fun c => In (letter c) (flags_of d)) fs /\
    ((cs = fs /\ wants = None /\ os = renamed d (letter_flags fs)) \/
     (exists c, cs = fs ++ [c] /\ In (letter c) (valued_of d) /\ wants = Some (param_of d (letter c)) /\ os = renamed d (letter_flags fs)) \/
     (exists c v, cs = fs ++ c :: v /\ v <> [] /\ In (letter c) (valued_of d) /\ wants = None /\ os = renamed d (letter_flags fs) ++ [(param_of d (letter c), Some v)])).
Proof.
  intros Hi. revert os unknown wants. induction cs as [|c cs IH]; intros os unknown wants; cbn [short_opts].
  - intros [= <- <- <-]. split; [reflexivity|]. exists []. split; [constructor|]. left. auto.
  - rewrite Hi. destruct (find_short (d_opts d) c) as [o|] eqn:Ef; [|discriminate].
    apply found_short in Ef as [Hc Hl]. assert (Hp : param_of d (letter c) = o_param o) by (unfold param_of; rewrite Hl; reflexivity).
    destruct (o_takes o) eqn:Et.
    + assert (Hv : In (letter c) (valued_of d)) by (apply in_valued; exists o; auto).
      destruct cs as [|c' cs'].
      * intros [= <- <- <-]. split; [reflexivity|]. exists []. split; [constructor|]. right. left. exists c. rewrite Hp. auto.
      * intros [= <- <- <-]. split; [reflexivity|]. exists []. split; [constructor|]. right. right. exists c, (c' :: cs'). rewrite Hp.
        split; [reflexivity|]. split; [discriminate|]. auto.
    + destruct (short_opts d cs) as [[[os1 u1] w1]|] eqn:E1; [|discriminate]. intros [= <- <- <-].
      destruct (IH _ _ _ eq_refl) as [-> [fs [Hf H]]]. split; [reflexivity|]. exists (c :: fs).
      split; [constructor; [apply in_flags; exists o; auto|exact Hf]|].
      destruct H as [(-> & -> & ->)|[(c1 & -> & H1 & -> & ->)|(c1 & v & -> & H1 & H2 & -> & ->)]].
      * left. cbn. rewrite Hp. auto.
      * right. left. exists c1. cbn. rewrite Hp. auto.
      * right. right. exists c1, v. cbn. rewrite Hp. auto.
Qed.
Lemma short_opts_flags d fs rest os unknown wants : good_decl d = true -> Forall (fun c => In (letter c) (flags_of d)) fs ->
  short_opts d rest = Some (os, unknown, wants) -> short_opts d (fs ++ rest) = Some (renamed d (letter_flags fs) ++ os, unknown, wants).
Proof.
  intros Hg Hf Hr. induction Hf as [|c fs Hc _ IH]; [exact Hr|]. cbn [app short_opts]. apply in_flags in Hc as [o [H1 H2]].
  assert (Hp : param_of d (letter c) = o_param o) by (unfold param_of; rewrite H1; reflexivity).
  apply short_lookup in H1 as [_ ->]; [|exact Hg]. rewrite H2, IH. cbn. rewrite Hp. reflexivity.
Qed.
Lemma short_opts_last d c : good_decl d = true -> In (letter c) (valued_of d) -> short_opts d [c] = Some ([], [], Some (param_of d (letter c))).
Proof.
  intros Hg Hc. apply in_valued in Hc as [o [H1 H2]]. assert (Hp : param_of d (letter c) = o_param o) by (unfold param_of; rewrite H1; reflexivity).
  apply short_lookup in H1 as [_ H1]; [|exact Hg]. cbn [short_opts]. rewrite H1, H2, Hp. reflexivity.
Qed.
Lemma short_opts_attached d c v : good_decl d = true -> In (letter c) (valued_of d) -> v <> [] ->
  short_opts d (c :: v) = Some ([(param_of d (letter c), Some v)], [], None).
Proof.
  intros Hg Hc Hv. apply in_valued in Hc as [o [H1 H2]]. assert (Hp : param_of d (letter c) = o_param o) by (unfold param_of; rewrite H1; reflexivity).
  apply short_lookup in H1 as [_ H1]; [|exact Hg]. cbn [short_opts]. rewrite H1, H2, Hp. destruct v; [congruence|reflexivity].
Qed.
Lemma word_opts_letters d cs : good_decl d = true -> (exists c r, cs = c :: r /\ c <> 45%N) ->
  text_eqb (L "-" ++ cs) (L "--") = false /\ like_opt (L "-" ++ cs) = true /\
  word_opts d (L "-" ++ cs) = match short_opts d cs with
    | Some (os, unknown, wants) => Some (Taken os (match unknown with [] => [] | _ => [45%N :: unknown] end) wants)
    | None => None end.
Proof.
  intros Hg [c [r [-> Hc]]]. split; [|split; [reflexivity|]].
  { apply text_eqb_neq. intros H. injection H as -> _. congruence. }
  unfold word_opts. destruct (cut_eq (L "-" ++ c :: r)) as [n v] eqn:Ec.
  assert (Hn : find_long (d_opts d) n = None).
  { destruct (find_long (d_opts d) n) as [o|] eqn:Ef; [|reflexivity]. exfalso. apply (good_long d n o Hg) in Ef as [_ [[r' [-> _]] _]].
    destruct v as [x|].
    - apply cut_eq_some in Ec as [Ec _]. cbn in Ec. injection Ec as Ec _. congruence.
    - apply cut_eq_none in Ec as [Ec _]. cbn in Ec. injection Ec as Ec _. congruence. }
  rewrite Hn. assert (Hs : startswith (L "--") (L "-" ++ c :: r) = false).
  { apply not_true_iff_false. intros H. apply startswith_app in H as [r' H]. injection H as -> _. congruence. }
  rewrite Hs. reflexivity.
Qed.

(** ** The words of a command *)
Lemma renamed_app d a b : renamed d (a ++ b) = renamed d a ++ renamed d b.
Proof. apply map_app. Qed.
Lemma parse_sound d n ws os' args : good_decl d = true -> d_ignore d = false -> (length ws <= n)%nat -> parse_words d ws = Some (os', args) ->
  exists os, spelled (d_mixed d) (flags_of d) (valued_of d) ws os args /\ os' = renamed d os.
Proof.
  intros Hg Hi. revert ws os' args. induction n as [|n IH]; intros ws os' args Hn H.
  { destruct ws; [|cbn in Hn; lia]. injection H as <- <-. exists []. split; [constructor|reflexivity]. }
  destruct ws as [|w ws]; [injection H as <- <-; exists []; split; [constructor|reflexivity]|]. cbn [parse_words] in H.
  destruct (text_eqb w (L "--")) eqn:Ew.
  { apply text_eqb_eq in Ew as ->. injection H as <- <-. exists []. split; [constructor|reflexivity]. }
  destruct (like_opt w) eqn:El.
  2: { apply like_opt_plain in El. destruct (d_mixed d) eqn:Em.
    - destruct (parse_words d ws) as [[os1 a1]|] eqn:E1; [|discriminate]. injection H as <- <-.
      apply IH in E1 as [os [H1 ->]]; [|cbn in Hn; lia]. exists os. split; [constructor; auto|reflexivity].
    - injection H as <- <-. exists []. split; [apply sp_stop; auto|reflexivity]. }
  destruct (word_opts d w) as [[os1 a1 w1]|] eqn:E1; [|discriminate].
  apply like_opt_cons in El as [c [r ->]]. unfold word_opts in E1.
  destruct (cut_eq (45%N :: c :: r)) as [m v] eqn:Ec.
  destruct (find_long (d_opts d) m) as [o|] eqn:Ef.
  - apply (good_long d m o Hg) in Ef as [Hl [Hn' _]]. assert (Hp : param_of d m = o_param o) by (unfold param_of; rewrite Hl; reflexivity).
    destruct (o_takes o) eqn:Et.
    + assert (Hv : In m (valued_of d)) by (apply in_valued; exists o; auto). destruct v as [x|].
      * injection E1 as <- <- <-. apply cut_eq_some in Ec as [-> _].
        destruct (parse_words d ws) as [[os2 a2]|] eqn:E2; [|discriminate]. injection H as <- <-.
        apply IH in E2 as [os [H1 ->]]; [|cbn in Hn; lia]. exists ((m, Some x) :: os). split; [apply (sp_value_eq _ _ _ m x); auto|cbn; rewrite Hp; reflexivity].
      * injection E1 as <- <- <-. apply cut_eq_none in Ec as [-> _]. destruct ws as [|x ws]; [discriminate|].
        destruct (parse_words d ws) as [[os2 a2]|] eqn:E2; [|discriminate]. injection H as <- <-.
        apply IH in E2 as [os [H1 ->]]; [|cbn in Hn; lia]. exists ((45%N :: c :: r, Some x) :: os). split; [apply sp_value; auto|cbn [renamed map fst snd app]; rewrite Hp; reflexivity].
    + assert (Hv : In m (flags_of d)) by (apply in_flags; exists o; auto). destruct v as [x|]; [discriminate|].
      injection E1 as <- <- <-. apply cut_eq_none in Ec as [-> _].
      destruct (parse_words d ws) as [[os2 a2]|] eqn:E2; [|discriminate]. injection H as <- <-.
      apply IH in E2 as [os [H1 ->]]; [|cbn in Hn; lia]. exists ((45%N :: c :: r, None) :: os). split; [apply sp_flag; auto|cbn [renamed map fst snd app]; rewrite Hp; reflexivity].
  - rewrite Hi in E1. destruct (startswith (L "--") (45%N :: c :: r)) eqn:Es; [discriminate|]. cbn [tl] in E1.
    destruct (short_opts d (c :: r)) as [[[os2 u2] w2]|] eqn:E2; [|discriminate]. injection E1 as <- <- <-.
    apply short_opts_sound in E2 as [-> [fs [Hf E2]]]; [|exact Hi].
    destruct E2 as [(E2 & -> & ->)|[(c1 & E2 & Hc1 & -> & ->)|(c1 & x & E2 & Hx & Hc1 & -> & ->)]]; rewrite E2.
    + destruct (parse_words d ws) as [[os3 a3]|] eqn:E3; [|discriminate]. injection H as <- <-.
      apply IH in E3 as [os [H1 ->]]; [|cbn in Hn; lia]. exists (letter_flags fs ++ os). split; [apply (sp_letters _ _ _ fs); auto; subst fs; discriminate|].
      rewrite renamed_app. reflexivity.
    + destruct ws as [|x ws]; [discriminate|].
      destruct (parse_words d ws) as [[os3 a3]|] eqn:E3; [|discriminate]. injection H as <- <-.
      apply IH in E3 as [os [H1 ->]]; [|cbn in Hn; lia]. exists (letter_flags fs ++ (letter c1, Some x) :: os). split; [apply (sp_letters_value _ _ _ fs c1 x); auto|].
      rewrite renamed_app. reflexivity.
    + destruct (parse_words d ws) as [[os3 a3]|] eqn:E3; [|discriminate]. injection H as <- <-.
      apply IH in E3 as [os [H1 ->]]; [|cbn in Hn; lia]. exists (letter_flags fs ++ (letter c1, Some x) :: os). split; [apply (sp_letters_attached _ _ _ fs c1 x); auto|].
      rewrite renamed_app, <- app_assoc. reflexivity.
Qed.
Lemma long_word n : long_name n -> text_eqb n (L "--") = false /\ like_opt n = true.
Proof. intros [r [-> Hr]]. destruct r as [|c r]; [congruence|]. split; reflexivity. Qed.
Lemma first_letter d cs : good_decl d = true -> cs <> [] -> Forall (fun c => In (letter c) (flags_of d)) cs -> exists c r, cs = c :: r /\ c <> 45%N.
Proof.
  intros Hg Hc Hf. destruct Hf as [|c r Hf _]; [congruence|]. exists c, r. split; [reflexivity|]. apply in_flags in Hf as [o [H1 _]].
  apply short_lookup in H1; [tauto|exact Hg].
Qed.
Lemma first_letter_v d cs c v : good_decl d = true -> Forall (fun c => In (letter c) (flags_of d)) cs -> In (letter c) (valued_of d) ->
  exists c' r, cs ++ c :: v = c' :: r /\ c' <> 45%N.
Proof.
  intros Hg Hf Hc. destruct cs as [|c' r].
  - exists c, v. split; [reflexivity|]. apply in_valued in Hc as [o [H1 _]]. apply short_lookup in H1; [tauto|exact Hg].
  - destruct (first_letter d (c' :: r) Hg) as [c0 [r0 [H1 H2]]]; [discriminate|exact Hf|]. injection H1 as <- <-. exists c', (r ++ c :: v). auto.
Qed.
Lemma parse_complete d ws os args : good_decl d = true -> spelled (d_mixed d) (flags_of d) (valued_of d) ws os args ->
  parse_words d ws = Some (renamed d os, args).
Proof.
  intros Hg H. induction H as [|ws|w ws os args Hm Hw _ IH|w ws Hm Hw|n ws os args Hn Hf _ IH|n v ws os args Hn Hf _ IH|n v ws os args Hn Hf _ IH
    |cs ws os args Hc Hf _ IH|cs c v ws os args Hf Hv _ IH|cs c v ws os args Hx Hf Hv _ IH]; cbn [parse_words].
  - reflexivity.
  - reflexivity.
  - apply plain_like_opt in Hw as [H1 H2]. rewrite (proj2 (text_eqb_neq _ _) H2), H1, Hm, IH. reflexivity.
  - apply plain_like_opt in Hw as [H1 H2]. rewrite (proj2 (text_eqb_neq _ _) H2), H1, Hm. reflexivity.
  - destruct (long_word n Hn) as [-> ->]. apply in_flags in Hf as [o [H1 H2]]. assert (Hp : param_of d n = o_param o) by (unfold param_of; rewrite H1; reflexivity).
    apply long_lookup in H1 as [H1 H3]; [|exact Hg|exact Hn]. unfold word_opts. rewrite (proj2 (cut_eq_none n n)) by auto. rewrite H1, H2, IH.
    cbn [renamed map fst snd app]. rewrite Hp. reflexivity.
  - destruct (long_word n Hn) as [-> ->]. apply in_valued in Hf as [o [H1 H2]]. assert (Hp : param_of d n = o_param o) by (unfold param_of; rewrite H1; reflexivity).
    apply long_lookup in H1 as [H1 H3]; [|exact Hg|exact Hn]. unfold word_opts. rewrite (proj2 (cut_eq_none n n)) by auto. rewrite H1, H2, IH.
    cbn [renamed map fst snd app]. rewrite Hp. reflexivity.
  - assert (Hn' : long_name (n ++ L "=" ++ v)).
    { destruct Hn as [r [-> Hr]]. exists (r ++ L "=" ++ v). split; [rewrite <- app_assoc; reflexivity|]. destruct r; [congruence|discriminate]. }
    destruct (long_word _ Hn') as [-> ->]. apply in_valued in Hf as [o [H1 H2]]. assert (Hp : param_of d n = o_param o) by (unfold param_of; rewrite H1; reflexivity).
    apply long_lookup in H1 as [H1 H3]; [|exact Hg|exact Hn]. unfold word_opts. rewrite (proj2 (cut_eq_some (n ++ L "=" ++ v) n v)) by auto. rewrite H1, H2, IH.
    cbn [renamed map fst snd app]. rewrite Hp. reflexivity.
  - destruct (word_opts_letters d cs Hg (first_letter d cs Hg Hc Hf)) as [-> [-> ->]].
    pose proof (short_opts_flags d cs [] [] [] None Hg Hf eq_refl) as Hs. rewrite !app_nil_r in Hs. rewrite Hs, IH, renamed_app. reflexivity.
  - destruct (word_opts_letters d (cs ++ [c]) Hg (first_letter_v d cs c [] Hg Hf Hv)) as [-> [-> ->]].
    rewrite (short_opts_flags d cs [c] _ _ _ Hg Hf (short_opts_last d c Hg Hv)), app_nil_r, IH, renamed_app. reflexivity.
  - destruct (word_opts_letters d (cs ++ c :: v) Hg (first_letter_v d cs c v Hg Hf Hv)) as [-> [-> ->]].
    rewrite (short_opts_flags d cs (c :: v) _ _ _ Hg Hf (short_opts_attached d c v Hg Hv Hx)), IH, renamed_app, <- app_assoc. reflexivity.
Qed.

(** ** Options by meaning *)
Lemma spelled_known m F V ws os args : spelled m F V ws os args -> forall n v, In (n, v) os -> (v = None /\ In n F) \/ (exists x, v = Some x /\ In n V).
Proof.
  assert (Hl : forall cs n v, Forall (fun c => In (letter c) F) cs -> In (n, v) (map (fun c => (letter c, @None text)) cs) -> v = None /\ In n F).
  { intros cs n v Hf Hi. apply in_map_iff in Hi as [c [[= <- <-] Hc]]. rewrite Forall_forall in Hf. auto. }
  intros H. induction H; intros n' v' Hi; try (destruct Hi as [[= <- <-]|Hi]; eauto); eauto; try contradiction.
  - apply in_app_or in Hi as [Hi|Hi]; [left; eauto|auto].
  - apply in_app_or in Hi as [Hi|[[= <- <-]|Hi]]; [left; eauto|right; eauto|auto].
  - apply in_app_or in Hi as [Hi|[[= <- <-]|Hi]]; [left; eauto|right; eauto|auto].
Qed.
Lemma spelled_with m F V F' V' ws os args : spelled m F V ws os args -> (forall n, In (n, None) os -> In n F -> In n F') ->
  (forall n x, In (n, Some x) os -> In n V -> In n V') -> spelled m F' V' ws os args.
Proof.
  assert (Hl : forall cs os, Forall (fun c => In (letter c) F) cs -> (forall n, In (n, None) (map (fun c => (letter c, @None text)) cs ++ os) -> In n F -> In n F') ->
    Forall (fun c => In (letter c) F') cs).
  { intros cs os0 Hf Hi. rewrite Forall_forall in *. intros c Hc. apply Hi; [apply in_or_app; left; apply in_map_iff; exists c; auto|auto]. }
  intros H. induction H; intros HF HV.
  - constructor.
  - constructor.
  - constructor; auto.
  - apply sp_stop; auto.
  - apply sp_flag; auto; [apply HF; [left; reflexivity|assumption]|]. apply IHspelled; intros; [apply HF|eapply HV]; eauto; right; eauto.
  - apply sp_value; auto; [eapply HV; [left; reflexivity|assumption]|]. apply IHspelled; intros; [apply HF|eapply HV]; eauto; right; eauto.
  - apply sp_value_eq; auto; [eapply HV; [left; reflexivity|assumption]|]. apply IHspelled; intros; [apply HF|eapply HV]; eauto; right; eauto.
  - apply sp_letters; auto; [eapply Hl; eauto|]. apply IHspelled; intros; [apply HF|eapply HV]; eauto; apply in_or_app; right; eauto.
  - apply sp_letters_value; auto; [eapply Hl; eauto|eapply HV; [apply in_or_app; right; left; reflexivity|assumption]|].
    apply IHspelled; intros; [apply HF|eapply HV]; eauto; apply in_or_app; right; right; eauto.
  - apply sp_letters_attached; auto; [eapply Hl; eauto|eapply HV; [apply in_or_app; right; left; reflexivity|assumption]|].
    apply IHspelled; intros; [apply HF|eapply HV]; eauto; apply in_or_app; right; right; eauto.
Qed.

(** the settings of one parameter, by the names of its option *)
Definition same_set (a b : list text) : bool := forallb (fun n => mem_text n b) a && forallb (fun n => mem_text n a) b.
Lemma same_set_iff a b : same_set a b = true -> forall n, In n a <-> In n b.
Proof.
  unfold same_set. rewrite andb_true_iff, !forallb_forall. intros [H1 H2] n. split; intros H.
  - apply mem_text_In. auto.
  - apply mem_text_In. auto.
Qed.
Definition named (d : decl) (p : text) (names : list text) : bool :=
  forallb (fun n => Bool.eqb (text_eqb (param_of d n) p) (mem_text n names)) (all_names d).
Definition known (d : decl) (os : list (text * option text)) : Prop :=
  forall n v, In (n, v) os -> (v = None /\ In n (flags_of d)) \/ (exists x, v = Some x /\ In n (valued_of d)).
Lemma flags_names d n : In n (flags_of d) -> In n (all_names d).
Proof. intros H. apply filter_In in H. tauto. Qed.
Lemma valued_names d n : In n (valued_of d) -> In n (all_names d).
Proof. intros H. apply filter_In in H. tauto. Qed.
Lemma named_iff d p names os : named d p names = true -> known d os -> forall n v, In (n, v) os -> (text_eqb (param_of d n) p = true <-> In n names).
Proof.
  intros Hn Hk n v Hi. unfold named in Hn. rewrite forallb_forall in Hn. assert (Ha : In n (all_names d)).
  { destruct (Hk n v Hi) as [[_ H]|[x [_ H]]]; [apply flags_names; exact H|apply valued_names; exact H]. }
  apply Hn in Ha. apply Bool.eqb_prop in Ha. rewrite Ha. apply mem_text_In.
Qed.
Lemma is_set_flagged d p names os : named d p names = true -> known d os -> flagged os names (is_set (renamed d os) p).
Proof.
  intros Hn Hk. unfold flagged, is_set. rewrite existsb_exists. split.
  - intros [[q v] [H1 H2]]. apply in_map_iff in H1 as [[n w] [H1 H3]]. injection H1 as <- <-. cbn [fst] in H2. exists n, w.
    split; [exact H3|]. apply (named_iff d p names os Hn Hk n w H3). exact H2.
  - intros [n [v [H1 H2]]]. exists (param_of d n, v). split; [apply in_map_iff; exists (n, v); auto|]. apply (named_iff d p names os Hn Hk n v H1). exact H2.
Qed.
Lemma known_cons d o os : known d (o :: os) -> known d os.
Proof. intros H n v Hi. apply H. right. exact Hi. Qed.
Lemma value_of_gives d p names os : named d p names = true -> forallb (fun n => mem_text n (valued_of d) && negb (mem_text n (flags_of d))) names = true -> known d os ->
  gives os names (value_of (renamed d os) p).
Proof.
  intros Hn Hv Hk. rewrite forallb_forall in Hv. induction os as [|[n v] os IH]; [intros n y []|].
  pose proof (named_iff d p names _ Hn Hk n v (or_introl eq_refl)) as Hq. specialize (IH (known_cons _ _ _ Hk)).
  cbn [renamed map value_of fst snd]. fold (renamed d os). destruct (value_of (renamed d os) p) as [x|].
  - destruct IH as (a & m & b & -> & H1 & H2). exists ((n, v) :: a), m, b. auto.
  - destruct (text_eqb (param_of d n) p) eqn:E.
    + destruct (Hk n v (or_introl eq_refl)) as [[-> Hf]|[x [-> _]]].
      * apply proj1 in Hq. specialize (Hv n (Hq eq_refl)). apply andb_true_iff in Hv as [_ Hv]. apply mem_text_In in Hf. rewrite Hf in Hv. discriminate.
      * exists [], n, os. split; [reflexivity|]. split; [apply Hq; reflexivity|exact IH].
    + intros m y [[= <- <-]|H]; [rewrite <- Hq; discriminate|eauto].
Qed.
Lemma gives_one os names v v' : gives os names v -> gives os names v' -> v = v'.
Proof.
  assert (Hx : forall x, gives os names (Some x) -> gives os names None -> False).
  { intros x (a & n & b & -> & H1 & _) H. eapply H; [apply in_or_app; right; left; reflexivity|exact H1]. }
  destruct v as [x|], v' as [y|]; intros H H'; [|exfalso; eapply Hx; eauto|exfalso; eapply Hx; eauto|reflexivity].
  destruct H as (a & n & b & E & H1 & H2), H' as (a' & n' & b' & E' & H1' & H2'). rewrite E in E'. clear E os Hx.
  revert a' E'. induction a as [|o a IH]; intros [|o' a'] E'; cbn [app] in E'.
  - injection E' as <- <- <-. reflexivity.
  - injection E' as <- ->. exfalso. eapply H2; [apply in_or_app; right; left; reflexivity|exact H1'].
  - injection E' as -> <-. exfalso. eapply H2'; [apply in_or_app; right; left; reflexivity|exact H1].
  - injection E' as _ E'. eauto.
Qed.
Lemma flagged_one os names b b' : flagged os names b -> flagged os names b' -> b = b'.
Proof. unfold flagged. intros H H'. destruct b, b'; try reflexivity; [symmetry; apply H', H; reflexivity|apply H, H'; reflexivity]. Qed.
Lemma value_or_gives d p names default os : named d p names = true -> forallb (fun n => mem_text n (valued_of d) && negb (mem_text n (flags_of d))) names = true -> known d os ->
  gives_or os names default (value_or (renamed d os) p default).
Proof.
  intros Hn Hv Hk. pose proof (value_of_gives d p names os Hn Hv Hk) as H. unfold gives_or, value_or. destruct (value_of (renamed d os) p); [left|right]; auto.
Qed.
Lemma gives_or_one os names default v v' : gives_or os names default v -> gives_or os names default v' -> v = v'.
Proof.
  intros [H|[H ->]] [H'|[H' ->]]; try reflexivity; pose proof (gives_one _ _ _ _ H H') as Hx; congruence.
Qed.

(** ** Help *)
Definition helps : list text := [L "-h"; L "--help"].
(** the options of [d] are these, and [more], which set the parameters [pms] *)
Definition fits (d : decl) (F V more pms : list text) : bool :=
  good_decl d && negb (d_ignore d) && same_set (flags_of d) (F ++ more) && same_set (valued_of d) V &&
  forallb (fun n => mem_text (param_of d n) pms) more && forallb (fun n => negb (mem_text (param_of d n) pms)) (F ++ V).
Lemma spelled_known_d d F V more pms m ws os args : fits d F V more pms = true -> spelled m F V ws os args -> known d os.
Proof.
  intros Hf H n v Hi. unfold fits in Hf. rewrite !andb_true_iff in Hf. destruct Hf as [[[[_ H1] H2] _] _].
  destruct (spelled_known _ _ _ _ _ _ H n v Hi) as [[-> Hn]|[x [-> Hn]]]; [left|right].
  - split; [reflexivity|]. apply (same_set_iff _ _ H1). apply in_or_app. left. exact Hn.
  - exists x. split; [reflexivity|]. apply (same_set_iff _ _ H2). exact Hn.
Qed.
Lemma is_set_renamed d os p : is_set (renamed d os) p = true <-> exists n v, In (n, v) os /\ param_of d n = p.
Proof.
  unfold is_set. rewrite existsb_exists. split.
  - intros [[q v] [H1 H2]]. apply in_map_iff in H1 as [[n w] [H1 H3]]. injection H1 as <- <-. apply text_eqb_eq in H2. exists n, w. auto.
  - intros [n [v [H1 H2]]]. exists (param_of d n, v). split; [apply in_map_iff; exists (n, v); auto|]. apply text_eqb_eq. exact H2.
Qed.
Lemma fits_words d F V more pms ws args (P : settings -> Prop) : fits d F V more pms = true ->
  (exists os', parse_words d ws = Some (os', args) /\ (forall p, In p pms -> is_set os' p = false) /\ P os') <->
  exists os, spelled (d_mixed d) F V ws os args /\ P (renamed d os).
Proof.
  intros Hf. pose proof Hf as Hf'. unfold fits in Hf'. rewrite !andb_true_iff, !forallb_forall in Hf'. destruct Hf' as [[[[[Hg Hi] H1] H2] H3] H4].
  apply Bool.negb_true_iff in Hi. pose proof (same_set_iff _ _ H1) as HF. pose proof (same_set_iff _ _ H2) as HV. split.
  - intros [os' [Hp [Hn HP]]]. apply (parse_sound d (length ws)) in Hp as [os [Hs ->]]; auto. exists os. split; [|exact HP].
    eapply spelled_with; [exact Hs| |]; [|intros; apply HV; assumption].
    intros n Hin Hfl. apply HF, in_app_or in Hfl as [Hfl|Hfl]; [exact Hfl|]. exfalso. apply H3, mem_text_In in Hfl.
    specialize (Hn _ Hfl). apply not_true_iff_false in Hn. apply Hn, is_set_renamed. eauto.
  - intros [os [Hs HP]]. exists (renamed d os). split.
    + apply parse_complete; [exact Hg|]. eapply spelled_with; [exact Hs| |]; [|intros; apply HV; assumption]. intros n _ Hn. apply HF, in_or_app. auto.
    + split; [|exact HP]. intros p Hp. apply not_true_iff_false. intros Hset. apply is_set_renamed in Hset as [n [v [Hin <-]]].
      assert (Hn : In n (F ++ V)) by (apply in_or_app; destruct (spelled_known _ _ _ _ _ _ Hs n v Hin) as [[_ H]|[x [_ H]]]; auto).
      apply H4, Bool.negb_true_iff in Hn. apply mem_text_In in Hp. congruence.
Qed.

(** ** The group *)
Lemma eager_none os : eager os = None <-> forall p, In p [L "help"; L "version"] -> is_set os p = false.
Proof.
  induction os as [|[q v] os IH]; cbn [eager is_set existsb fst]; [split; [reflexivity|reflexivity]|].
  destruct (text_eqb q (L "help")) eqn:E1.
  { split; [discriminate|]. intros H. specialize (H (L "help") (or_introl eq_refl)). rewrite E1 in H. discriminate. }
  destruct (text_eqb q (L "version")) eqn:E2.
  { split; [discriminate|]. intros H. specialize (H (L "version") (or_intror (or_introl eq_refl))). rewrite E2 in H. discriminate. }
  rewrite IH. split; intros H p Hp; specialize (H p Hp).
  - fold (is_set os p). rewrite H, orb_false_r. destruct Hp as [<-|[<-|[]]]; assumption.
  - apply orb_false_iff in H. tauto.
Qed.
Lemma main_fits : fits main [] [L "--basedir"] (helps ++ [L "--version"]) [L "help"; L "version"] = true.
Proof. vm_compute. reflexivity. Qed.
Lemma basedir_gives os : known main os -> gives os [L "--basedir"] (value_of (renamed main os) (L "basedir")).
Proof. apply value_of_gives; vm_compute; reflexivity. Qed.
Lemma main_words_iff ws b n rest :
  (exists os, main_words ws = inr (os, n :: rest) /\ value_of os (L "basedir") = b) <-> after_options ws b (n :: rest).
Proof.
  pose proof (fits_words main [] [L "--basedir"] _ _ ws (n :: rest) (fun os => value_of os (L "basedir") = b) main_fits) as Hf. split.
  - intros [os [H Hb]]. unfold main_words in H. destruct ws as [|w ws]; [discriminate|].
    destruct (parse_words main (w :: ws)) as [[os1 r1]|] eqn:E1; [|discriminate]. destruct (eager os1) eqn:E2; [discriminate|]. injection H as -> ->.
    apply proj1 in Hf. destruct Hf as [os0 [Hs H]]. { exists os. split; [reflexivity|]. split; [apply eager_none; exact E2|exact Hb]. }
    exists os0. split; [exact Hs|]. rewrite <- H. apply basedir_gives. eapply spelled_known_d; [exact main_fits|exact Hs].
  - intros [os [Hs Hg]]. apply proj2 in Hf. destruct Hf as [os' [H1 [H2 H3]]].
    { exists os. split; [exact Hs|]. eapply gives_one; [|exact Hg]. apply basedir_gives. eapply spelled_known_d; [exact main_fits|exact Hs]. }
    exists os'. split; [|exact H3]. apply eager_none in H2. unfold main_words. destruct ws as [|w ws]; [discriminate|]. rewrite H1, H2. reflexivity.
Qed.

(** ** sendmail *)
Lemma passed_stop ws args : passed (L "--" :: ws) args <-> args = ws.
Proof.
  split.
  - intros [a [Ha [[H1 H2]|[b [H1 H2]]]]].
    + subst a. inversion Ha as [|? ? Hx]; subst. destruct Hx as [Hx _]. congruence.
    + destruct a as [|w a]; [injection H1 as ->; exact H2|]. injection H1 as <- _. inversion Ha as [|? ? Hx]; subst. destruct Hx as [Hx _]. congruence.
  - intros ->. exists []. split; [constructor|]. right. exists ws. auto.
Qed.
Lemma passed_cons w ws args : w <> L "--" -> (passed (w :: ws) args <-> no_help w /\ exists args', args = w :: args' /\ passed ws args').
Proof.
  intros Hw. split.
  - intros [a [Ha [[H1 H2]|[b [H1 H2]]]]].
    + subst a args. inversion Ha; subst. split; [assumption|]. exists ws. split; [reflexivity|]. exists ws. auto.
    + destruct a as [|w' a]; [injection H1 as -> _; congruence|]. injection H1 as <- ->. subst args. inversion Ha; subst. split; [assumption|].
      exists (a ++ b). split; [reflexivity|]. exists a. split; [assumption|]. right. exists b. auto.
  - intros [Hn [args' [-> [a [Ha [[-> ->]|[b [-> ->]]]]]]]]; exists (w :: a); (split; [constructor; assumption|]); [left|right; exists b]; auto.
Qed.
Lemma passed_nil args : passed [] args <-> args = [].
Proof.
  split; [|intros ->; exists []; auto]. intros [a [_ [[<- ->]|[b [H _]]]]]; [reflexivity|destruct a; discriminate].
Qed.
Lemma short_help cs : short_opts d_sendmail cs =
  Some (map (fun _ => (L "help", None)) (filter (N.eqb 104) cs), filter (fun c => negb (N.eqb 104 c)) cs, None).
Proof.
  induction cs as [|c cs IH]; [reflexivity|]. cbn [short_opts filter].
  assert (Hf : find_short (d_opts d_sendmail) c = if N.eqb 104 c then Some opt_help else None).
  { destruct (N.eqb_spec 104 c) as [<-|H]; [reflexivity|]. unfold find_short. cbn [d_opts d_sendmail find opt_help o_names existsb].
    assert (H1 : text_eqb (L "-h") [45%N; c] = false) by (apply text_eqb_neq; intros [= H1]; congruence).
    assert (H2 : text_eqb (L "--help") [45%N; c] = false) by (apply text_eqb_neq; discriminate).
    rewrite H1, H2, !andb_false_r. reflexivity. }
  rewrite Hf. destruct (N.eqb_spec 104 c) as [<-|H]; cbn [negb opt_help o_takes o_param d_ignore d_sendmail]; rewrite IH; reflexivity.
Qed.
Lemma filter_h cs : ~ In 104%N cs -> filter (N.eqb 104) cs = [] /\ filter (fun c => negb (N.eqb 104 c)) cs = cs.
Proof.
  induction cs as [|c cs IH]; intros H; [auto|]. cbn [filter]. assert (Hc : N.eqb 104 c = false) by (apply N.eqb_neq; intros <-; apply H; left; reflexivity).
  rewrite Hc. destruct IH as [-> ->]; [intros Hi; apply H; right; exact Hi|auto].
Qed.
Lemma find_long_help n : find_long (d_opts d_sendmail) n = if text_eqb (L "--help") n then Some opt_help else None.
Proof.
  unfold find_long. cbn [d_opts d_sendmail find opt_help o_names existsb].
  change (is_short (L "-h")) with true. change (is_short (L "--help")) with false. cbn [negb andb orb]. rewrite orb_false_r. reflexivity.
Qed.
(** a word that is passed on, and one that is not *)
Lemma sendmail_word w : text_eqb w (L "--") = false -> like_opt w = true ->
  (no_help w /\ word_opts d_sendmail w = Some (Taken [] [w] None)) \/
  (~ no_help w /\ (word_opts d_sendmail w = None \/ exists os args, word_opts d_sendmail w = Some (Taken os args None) /\ is_set os (L "help") = true)).
Proof.
  intros Hw Hl. apply text_eqb_neq in Hw. apply like_opt_cons in Hl as [c [r ->]]. unfold word_opts.
  destruct (cut_eq (45%N :: c :: r)) as [n v] eqn:Ec. rewrite find_long_help. destruct (text_eqb (L "--help") n) eqn:En.
  - apply text_eqb_eq in En as <-. right. cbn [opt_help o_takes o_param]. destruct v as [x|].
    + apply cut_eq_some in Ec as [Ec _]. split; [|left; reflexivity]. intros (_ & _ & H & _). apply (H x). exact Ec.
    + apply cut_eq_none in Ec as [Ec _]. split; [|right; eexists _, _; split; [reflexivity|reflexivity]]. intros (_ & H & _). congruence.
  - cbn [d_ignore d_sendmail]. destruct (startswith (L "--") (45%N :: c :: r)) eqn:Es.
    + left. split; [|reflexivity]. split; [exact Hw|]. apply text_eqb_neq in En. apply startswith_app in Es as [r' Es]. split; [|split].
      * intros H. rewrite H in Ec. vm_compute in Ec. injection Ec as <- _. apply En. reflexivity.
      * intros x H. rewrite H in Ec. assert (Hc : cut_eq (L "--help=" ++ x) = (L "--help", Some x)) by (apply cut_eq_some; split; [reflexivity|vm_compute; intros Hx; repeat (destruct Hx as [Hx|Hx]; [discriminate Hx|]); exact Hx]).
        rewrite Hc in Ec. injection Ec as <- _. apply En. reflexivity.
      * intros cs H. left. rewrite Es in H. injection H as <-. exists r'. reflexivity.
    + cbn [tl]. rewrite short_help.
      assert (Hd : c <> 45%N) by (intros ->; discriminate).
      destruct (in_dec N.eq_dec 104%N (c :: r)) as [Hi|Hi].
      * right. split.
        { intros (_ & _ & _ & H). destruct (H (c :: r) eq_refl) as [[r' Hr]|H']; [injection Hr as -> _; congruence|auto]. }
        right. eexists _, _. split; [reflexivity|]. unfold is_set. apply existsb_exists. exists (L "help", None). split; [|reflexivity].
        apply in_map_iff. exists 104%N. split; [reflexivity|]. apply filter_In. split; [exact Hi|reflexivity].
      * left. destruct (filter_h (c :: r) Hi) as [-> ->]. split; [|reflexivity]. split; [exact Hw|]. split; [|split].
        -- intros H. injection H as -> _. congruence.
        -- intros x H. injection H as -> _. congruence.
        -- intros cs [= <-]. right. exact Hi.
Qed.
Lemma plain_no_help w : plain_word w -> no_help w.
Proof.
  intros [->|H].
  - split; [discriminate|]. split; [discriminate|]. split; [intros v; discriminate|]. intros cs [= <-]. right. intros [].
  - split; [intros ->; apply (H (L "-")); reflexivity|]. split; [intros ->; apply (H (L "-help")); reflexivity|].
    split; [intros v ->; apply (H (L "-help=" ++ v)); reflexivity|]. intros cs ->. exfalso. apply (H cs). reflexivity.
Qed.
Lemma is_set_app os os' p : is_set (os ++ os') p = is_set os p || is_set os' p.
Proof. unfold is_set. apply existsb_app. Qed.
Lemma sendmail_words ws args : (exists os, parse_words d_sendmail ws = Some (os, args) /\ is_set os (L "help") = false) <-> passed ws args.
Proof.
  revert args. induction ws as [|w ws IH]; intros args.
  - rewrite passed_nil. split; [intros [os [[= <- <-] _]]; reflexivity|intros ->; exists []; auto].
  - destruct (text_eqb w (L "--")) eqn:Ew.
    { cbn [parse_words]. rewrite Ew. apply text_eqb_eq in Ew as ->. rewrite passed_stop. split; [intros [os [[= <- <-] _]]; reflexivity|intros ->; exists []; auto]. }
    rewrite passed_cons by (apply text_eqb_neq; exact Ew). destruct (like_opt w) eqn:El.
    + pose proof (sendmail_word w Ew El) as Hs. cbn [parse_words]. rewrite Ew, El. destruct Hs as [[Hn Hs]|[Hn Hs]].
      * rewrite Hs. split.
        -- intros [os [H1 H2]]. destruct (parse_words d_sendmail ws) as [[os1 a1]|] eqn:E1; [|discriminate]. injection H1 as <- <-.
           split; [exact Hn|]. exists a1. split; [reflexivity|]. apply IH. exists os1. auto.
        -- intros [_ [a1 [-> Hp]]]. apply IH in Hp as [os1 [H1 H2]]. exists os1. rewrite H1. auto.
      * split; [|intros [Hn' _]; contradiction]. intros [os [H1 H2]]. exfalso. destruct Hs as [Hs|[os1 [a1 [Hs Hset]]]]; rewrite Hs in H1; [discriminate|].
        destruct (parse_words d_sendmail ws) as [[os2 a2]|]; [|discriminate]. injection H1 as <- _. rewrite is_set_app, Hset in H2. discriminate.
    + cbn [parse_words]. rewrite Ew, El. cbn [d_mixed d_sendmail]. split.
      * intros [os [H1 H2]]. destruct (parse_words d_sendmail ws) as [[os1 a1]|] eqn:E1; [|discriminate]. injection H1 as <- <-.
        split; [apply plain_no_help, like_opt_plain; exact El|]. exists a1. split; [reflexivity|]. apply IH. exists os1. auto.
      * intros [_ [a1 [-> Hp]]]. apply IH in Hp as [os1 [H1 H2]]. exists os1. rewrite H1. auto.
Qed.

(** ** The commands *)
Definition reads (d : decl) (ws : list text) (i : invocation) : Prop :=
  exists args os', parse_words d ws = Some (os', args) /\ is_set os' (L "help") = false /\ d_make d os' args = Some i.
Lemma reads_iff d F V ws i : fits d F V helps [L "help"] = true -> d_mixed d = true ->
  reads d ws i <-> exists args os, spelled true F V ws os args /\ d_make d (renamed d os) args = Some i.
Proof.
  intros Hf Hm. unfold reads. split.
  - intros [args [os' [H1 [H2 H3]]]]. destruct (proj1 (fits_words d F V _ _ ws args (fun os => d_make d os args = Some i) Hf)) as [os [Hs Hi]].
    { exists os'. split; [exact H1|]. split; [intros p [<-|[]]; exact H2|exact H3]. }
    rewrite Hm in Hs. exists args, os. auto.
  - intros [args [os [Hs Hi]]]. rewrite <- Hm in Hs. destruct (proj2 (fits_words d F V _ _ ws args (fun os => d_make d os args = Some i) Hf)) as [os' [H1 [H2 H3]]].
    { exists os. auto. }
    exists args, os'. split; [exact H1|]. split; [apply H2; left; reflexivity|exact H3].
Qed.
(** what the command [d] makes of the options is what they say *)
Definition faithful (d : decl) (F V : list text) : Prop :=
  fits d F V helps [L "help"] = true /\ d_mixed d = true /\
  forall os args i, known d os -> d_make d (renamed d os) args = Some i -> says (d_name d) F V os args i.
Lemma faithful_asks d F V ws i : faithful d F V -> reads d ws i -> asks_for (d_name d) ws i.
Proof.
  intros [Hf [Hm H]] Hr. apply (reads_iff d F V) in Hr as [args [os [Hs Hi]]]; auto. left. exists F, V, os, args. split; [|exact Hs].
  apply H; [eapply spelled_known_d; eauto|exact Hi].
Qed.
Ltac given_ := apply value_of_gives; [vm_compute; reflexivity|vm_compute; reflexivity|assumption].
Ltac given_or := apply value_or_gives; [vm_compute; reflexivity|vm_compute; reflexivity|assumption].
Ltac flag_ := apply is_set_flagged; [vm_compute; reflexivity|assumption].
Ltac faith := split; [vm_compute; reflexivity|]; split; [reflexivity|]; intros os args i Hk Hm.
Lemma no_arg_some i args j : no_arg i args = Some j <-> args = [] /\ i = j.
Proof. destruct args; cbn [no_arg]; [split; [intros [= ->]; auto|intros [_ ->]; reflexivity]|split; [discriminate|intros [H _]; discriminate]]. Qed.
Ltac nothing Hm := apply no_arg_some in Hm as [-> <-].
Lemma one_arg_some f args j : one_arg f args = Some j <-> exists x, args = [x] /\ f x = j.
Proof.
  destruct args as [|x [|y l]]; cbn [one_arg]; [split; [discriminate|intros [x [H _]]; discriminate]| |split; [discriminate|intros [z [H _]]; discriminate]].
  split; [intros [= <-]; exists x; auto|intros [z [[= <-] <-]]; reflexivity].
Qed.
Lemma choice_iff v : choice_ok v = true <-> forall p, v = Some p -> preference p.
Proof.
  destruct v as [x|]; cbn [choice_ok]; [|split; [intros _ p; discriminate|reflexivity]]. rewrite mem_text_In. split.
  - intros H p [= <-]. destruct H as [<-|[<-|[]]]; [left|right]; reflexivity.
  - intros H. destruct (H x eq_refl) as [->| ->]; [left|right; left]; reflexivity.
Qed.
Lemma f_status : faithful d_status [L "-v"; L "--verbose"] acct_names.
Proof. faith. cbn [d_make d_status mycommand] in Hm. nothing Hm. apply says_status; [given_|flag_]. Qed.
Lemma f_add : faithful d_add_account [L "--use-system-keyring"] (L "--use-key" :: L "--gpgbin" :: L "--email-regex" :: acct_names).
Proof. faith. cbn [d_make d_add_account mycommand] in Hm. nothing Hm. apply says_add; [given_or|flag_|given_|given_or|given_]. Qed.
Lemma f_mod : faithful d_mod_account [] (L "--use-key" :: L "--gpgbin" :: L "--email-regex" :: L "--prefer-encrypt" :: acct_names).
Proof.
  faith. cbn [d_make d_mod_account mycommand] in Hm. destruct (choice_ok _) eqn:Ec; [|discriminate]. nothing Hm.
  apply says_mod; [given_or|given_|given_or|given_|given_|apply choice_iff; exact Ec].
Qed.
Lemma f_del : faithful d_del_account [] acct_names.
Proof. faith. cbn [d_make d_del_account mycommand] in Hm. nothing Hm. apply says_del; given_or. Qed.
Lemma f_find : faithful d_find_account [] [].
Proof. faith. cbn [d_make d_find_account mycommand] in Hm. apply one_arg_some in Hm as [x [-> <-]]. apply says_find. Qed.
Lemma f_header : faithful d_make_header [L "--val"] [].
Proof. faith. cbn [d_make d_make_header mycommand] in Hm. apply one_arg_some in Hm as [x [-> <-]]. apply says_header; flag_. Qed.
Lemma f_recommend : faithful d_recommend [] acct_names.
Proof. faith. cbn [d_make d_recommend mycommand] in Hm. injection Hm as <-. apply says_recommend; given_or. Qed.
Lemma f_peerstate : faithful d_peerstate [] acct_names.
Proof. faith. cbn [d_make d_peerstate mycommand] in Hm. apply one_arg_some in Hm as [x [-> <-]]. apply says_peerstate; given_or. Qed.
Lemma f_incoming : faithful d_process_incoming [L "--reparse"; L "--no-decrypt"] acct_names.
Proof. faith. cbn [d_make d_process_incoming mycommand] in Hm. nothing Hm. apply says_incoming; [given_|flag_|flag_]. Qed.
Lemma f_scandir : faithful d_scandir_incoming [L "--reparse"] [].
Proof. faith. cbn [d_make d_scandir_incoming mycommand] in Hm. apply one_arg_some in Hm as [x [-> <-]]. apply says_scandir; flag_. Qed.
Lemma f_outgoing : faithful d_process_outgoing [] [].
Proof. faith. cbn [d_make d_process_outgoing mycommand] in Hm. nothing Hm. apply says_outgoing. Qed.
Lemma f_import : faithful d_import_public_key [] (L "--prefer-encrypt" :: L "--email" :: acct_names).
Proof.
  faith. cbn [d_make d_import_public_key mycommand] in Hm. destruct (choice_ok _) eqn:Ec; [|discriminate]. nothing Hm.
  apply says_import; [given_or|given_or| |given_]. unfold value_or. destruct (value_of (renamed _ os) (L "prefer_encrypt")) as [p|] eqn:Ep; [|right; reflexivity].
  apply (proj1 (choice_iff _) Ec). reflexivity.
Qed.
Lemma f_export : faithful d_export_public_key [] acct_names.
Proof.
  faith. cbn [d_make d_export_public_key mycommand] in Hm. destruct args as [|x [|y l]]; cbn [maybe_arg] in Hm; [| |discriminate]; injection Hm as <-.
  - apply says_export; given_or.
  - apply says_export_of; given_or.
Qed.
Lemma f_export_secret : faithful d_export_secret_key [] acct_names.
Proof. faith. cbn [d_make d_export_secret_key mycommand] in Hm. nothing Hm. apply says_export_secret; given_or. Qed.
Lemma f_bot : faithful d_bot_reply [] [L "--smtp"; L "--fallback-delivto"].
Proof. faith. cbn [d_make d_bot_reply mycommand] in Hm. nothing Hm. apply says_bot; given_. Qed.
Lemma f_destroy : faithful d_destroy_all [L "--yes"] [].
Proof. faith. cbn [d_make d_destroy_all mycommand] in Hm. nothing Hm. apply says_destroy; flag_. Qed.

Lemma reads_asks n d ws i : find_command n = Some d -> reads d ws i -> asks_for n ws i.
Proof.
  intros Hf Hr. apply find_some in Hf as [Hd Hn]. apply text_eqb_eq in Hn as <-. revert Hd. cbn [commands In]. intros Hd.
  destruct Hd as [<-|Hd]; [exact (faithful_asks _ _ _ ws i f_status Hr)|].
  destruct Hd as [<-|Hd]; [exact (faithful_asks _ _ _ ws i f_add Hr)|].
  destruct Hd as [<-|Hd]; [exact (faithful_asks _ _ _ ws i f_mod Hr)|].
  destruct Hd as [<-|Hd]; [exact (faithful_asks _ _ _ ws i f_del Hr)|].
  destruct Hd as [<-|Hd]; [exact (faithful_asks _ _ _ ws i f_find Hr)|].
  destruct Hd as [<-|Hd]; [exact (faithful_asks _ _ _ ws i f_incoming Hr)|].
  destruct Hd as [<-|Hd]; [exact (faithful_asks _ _ _ ws i f_scandir Hr)|].
  destruct Hd as [<-|Hd]; [exact (faithful_asks _ _ _ ws i f_import Hr)|].
  destruct Hd as [<-|Hd]; [exact (faithful_asks _ _ _ ws i f_peerstate Hr)|].
  destruct Hd as [<-|Hd]; [exact (faithful_asks _ _ _ ws i f_recommend Hr)|].
  destruct Hd as [<-|Hd]; [exact (faithful_asks _ _ _ ws i f_outgoing Hr)|].
  destruct Hd as [<-|Hd].
  { right. split; [reflexivity|]. destruct Hr as [args [os [H1 [H2 H3]]]]. cbn [d_make d_sendmail] in H3. injection H3 as <-. exists args. split; [reflexivity|].
  apply sendmail_words. exists os. auto. }
  destruct Hd as [<-|Hd]; [exact (faithful_asks _ _ _ ws i f_header Hr)|].
  destruct Hd as [<-|Hd]; [exact (faithful_asks _ _ _ ws i f_export Hr)|].
  destruct Hd as [<-|Hd]; [exact (faithful_asks _ _ _ ws i f_export_secret Hr)|].
  destruct Hd as [<-|Hd]; [exact (faithful_asks _ _ _ ws i f_bot Hr)|].
  destruct Hd as [<-|Hd]; [exact (faithful_asks _ _ _ ws i f_destroy Hr)|].
  contradiction.
Qed.
Lemma asks_reads n ws i : asks_for n ws i -> exists d, find_command n = Some d /\ reads d ws i.
Proof.
  intros [(F & V & os & args & Hs & Hw)|[-> [args [-> Hp]]]].
  2: { exists d_sendmail. split; [reflexivity|]. apply sendmail_words in Hp as [os [H1 H2]]. exists args, os. auto. }
  assert (Hv : forall d p names v, known d os -> named d p names = true ->
    forallb (fun n => mem_text n (valued_of d) && negb (mem_text n (flags_of d))) names = true -> gives os names v -> value_of (renamed d os) p = v).
  { intros d p names v Hk H1 H2 H. eapply gives_one; [apply (value_of_gives d p names); assumption|exact H]. }
  assert (Ho : forall d p names x v, known d os -> named d p names = true ->
    forallb (fun n => mem_text n (valued_of d) && negb (mem_text n (flags_of d))) names = true -> gives_or os names x v -> value_or (renamed d os) p x = v).
  { intros d p names x v Hk H1 H2 H. eapply gives_or_one; [apply (value_or_gives d p names); assumption|exact H]. }
  assert (Hf : forall d p names v, known d os -> named d p names = true -> flagged os names v -> is_set (renamed d os) p = v).
  { intros d p names v Hk H1 H. eapply flagged_one; [apply (is_set_flagged d p names); assumption|exact H]. }
  assert (Hgo : forall d F V ws args i, spelled true F V ws os args -> fits d F V helps [L "help"] = true -> d_mixed d = true ->
    (known d os -> d_make d (renamed d os) args = Some i) -> reads d ws i).
  { intros d F0 V0 ws0 args0 i0 Hsp Hfit Hm Hmk. apply (reads_iff d F0 V0); [exact Hfit|exact Hm|]. exists args0, os. split; [exact Hsp|]. apply Hmk. eapply spelled_known_d; eauto. }
  destruct Hs;
  [exists d_status|exists d_add_account|exists d_mod_account|exists d_del_account|exists d_find_account|exists d_make_header|exists d_recommend|exists d_peerstate
  |exists d_process_incoming|exists d_scandir_incoming|exists d_process_outgoing|exists d_import_public_key|exists d_export_public_key|exists d_export_public_key
  |exists d_export_secret_key|exists d_bot_reply|exists d_destroy_all];
  (split; [reflexivity|]); (eapply Hgo; [exact Hw|vm_compute; reflexivity|reflexivity|]); intros Hk;
  match goal with |- d_make ?d _ _ = _ => unfold d at 1; cbn [d_make mycommand no_arg one_arg maybe_arg]; unfold name_of end;
  repeat match goal with
  | H : gives os ?names ?v |- context [value_of (renamed ?d os) ?p] => rewrite (Hv d p names v Hk eq_refl eq_refl H)
  | H : gives_or os ?names ?x ?v |- context [value_or (renamed ?d os) ?p ?x] => rewrite (Ho d p names x v Hk eq_refl eq_refl H)
  | H : flagged os ?names ?v |- context [is_set (renamed ?d os) ?p] => rewrite (Hf d p names v Hk eq_refl H)
  end; try reflexivity.
  - rewrite (proj2 (choice_iff pref)) by assumption. reflexivity.
  - replace (choice_ok _) with true; [reflexivity|]. symmetry. apply choice_iff. intros p Hp.
    match goal with H : gives_or os [L "--prefer-encrypt"] _ ?x |- _ => rename H into Hpref end.
    pose proof (Ho d_import_public_key (L "prefer_encrypt") [L "--prefer-encrypt"] (L "mutual") pref Hk eq_refl eq_refl Hpref) as Hx.
    unfold value_or in Hx. rewrite Hp in Hx. congruence.
Qed.

(** ** The line *)
Lemma eager_no_run os l b i : eager os = Some l -> l <> Runs b i.
Proof.
  induction os as [|[q v] os IH]; cbn [eager]; [discriminate|]. destruct (text_eqb q (L "help")); [intros [= <-]; discriminate|].
  destruct (text_eqb q (L "version")); [intros [= <-]; discriminate|exact IH].
Qed.
Lemma main_no_run ws l b i : main_words ws = inl l -> l <> Runs b i.
Proof.
  unfold main_words. destruct ws as [|w ws]; [intros [= <-]; discriminate|]. destruct (parse_words main (w :: ws)) as [[os r]|]; [|intros [= <-]; discriminate].
  destruct (eager os) as [l'|] eqn:E; [|discriminate]. intros [= <-]. eapply eager_no_run; exact E.
Qed.
Lemma no_command_no_run n b i : no_command n <> Runs b i.
Proof.
  unfold no_command. destruct n as [|c n]; [discriminate|]. destruct (_ || _); [discriminate|]. destruct (main_words []) as [l|] eqn:E; [|discriminate].
  eapply main_no_run; exact E.
Qed.
Theorem c84_line : forall ws b i, read_line ws = Runs b i <-> exists n args, after_options ws b (n :: args) /\ asks_for n args i.
Proof.
  intros ws b i. unfold read_line. split.
  - destruct (main_words ws) as [l|[os [|n args]]] eqn:Em; [intros H; exfalso; eapply main_no_run; eauto|discriminate|].
    destruct (find_command n) as [d|] eqn:Ef; [|intros H; exfalso; eapply no_command_no_run; eauto].
    destruct (parse_words d args) as [[os' args']|] eqn:Ep; [|discriminate]. destruct (is_set os' (L "help")) eqn:Eh; [discriminate|].
    destruct (d_make d os' args') as [j|] eqn:Ed; [|discriminate]. intros [= <- <-]. exists n, args. split.
    + apply main_words_iff. exists os. auto.
    + eapply reads_asks; [exact Ef|]. exists args', os'. auto.
  - intros [n [args [Ha Hi]]]. apply main_words_iff in Ha as [os [-> Hb]]. apply asks_reads in Hi as [d [-> [args' [os' [-> [-> ->]]]]]]. rewrite Hb. reflexivity.
Qed.
Theorem c84_can : forall i, can_be_asked i -> exists ws, read_line ws = Runs None i.
Proof.
  set (ov := fun (n : text) (v : option text) => match v with Some x => [n ++ x] | None => [] end).
  set (fl := fun (n : text) (b : bool) => if b then [n] else []).
  intros [yes|n sys key bin regex|n key bin regex pref|n|a|val a|n l|n a|n rp nd|dir rp| |args|n p e|n k|n|n v|smtp fb] H; cbn [can_be_asked] in H.
  - exists (L "destroy-all" :: fl (L "--yes") yes). destruct yes; reflexivity.
  - exists (L "add-account" :: (L "--account=" ++ n) :: (L "--gpgbin=" ++ bin) :: fl (L "--use-system-keyring") sys ++ ov (L "--use-key=") key ++ ov (L "--email-regex=") regex).
    destruct sys, key, regex; reflexivity.
  - exists (L "mod-account" :: (L "--account=" ++ n) :: (L "--gpgbin=" ++ bin) :: ov (L "--use-key=") key ++ ov (L "--email-regex=") regex ++ ov (L "--prefer-encrypt=") pref).
    destruct pref as [p|]; [destruct H as [->| ->]|]; destruct key, regex; reflexivity.
  - exists [L "del-account"; L "--account=" ++ n]. reflexivity.
  - exists [L "find-account"; L "--"; a]. reflexivity.
  - exists (L "make-header" :: fl (L "--val") val ++ [L "--"; a]). destruct val; reflexivity.
  - exists (L "recommend" :: (L "--account=" ++ n) :: L "--" :: l). reflexivity.
  - exists [L "peerstate"; L "--account=" ++ n; L "--"; a]. reflexivity.
  - exists (L "process-incoming" :: ov (L "--account=") n ++ fl (L "--reparse") rp ++ fl (L "--no-decrypt") nd). destruct n, rp, nd; reflexivity.
  - exists (L "scandir-incoming" :: fl (L "--reparse") rp ++ [L "--"; dir]). destruct rp; reflexivity.
  - exists [L "process-outgoing"]. reflexivity.
  - exists (L "sendmail" :: L "--" :: args). reflexivity.
  - exists (L "import-public-key" :: (L "--account=" ++ n) :: (L "--prefer-encrypt=" ++ p) :: ov (L "--email=") e). destruct H as [->| ->], e; reflexivity.
  - exists (L "export-public-key" :: (L "--account=" ++ n) :: match k with Some x => [L "--"; x] | None => [] end). destruct k; reflexivity.
  - exists [L "export-secret-key"; L "--account=" ++ n]. reflexivity.
  - exists (L "status" :: ov (L "--account=") n ++ fl (L "--verbose") v). destruct n, v; reflexivity.
  - exists (L "bot-reply" :: ov (L "--smtp=") smtp ++ ov (L "--fallback-delivto=") fb). destruct smtp, fb; reflexivity.
Qed.
Lemma spelled_rest F V ws os args : spelled false F V ws os args -> exists pre, ws = pre ++ args.
Proof.
  intros H. induction H; try discriminate; try (destruct IHspelled as [pre ->]).
  - exists []. reflexivity.
  - exists [L "--"]. reflexivity.
  - exists []. reflexivity.
  - exists (n :: pre). reflexivity.
  - exists (n :: v :: pre). reflexivity.
  - exists ((n ++ L "=" ++ v) :: pre). reflexivity.
  - exists ((L "-" ++ cs) :: pre). reflexivity.
  - exists ((L "-" ++ cs ++ [c]) :: v :: pre). reflexivity.
  - exists ((L "-" ++ cs ++ c :: v) :: pre). reflexivity.
Qed.
Lemma spelled_flag_word m F ws os args n v : spelled m F [] ws os args -> (forall c, ~ In (letter c) F) -> In (n, v) os -> In n ws.
Proof.
  intros H HF. assert (Hl : forall cs n v, Forall (fun c => In (letter c) F) cs -> In (n, v) (map (fun c => (letter c, @None text)) cs) -> False).
  { intros cs n0 v0 Hf Hi. apply in_map_iff in Hi as [c [_ Hc]]. rewrite Forall_forall in Hf. eapply HF. eauto. }
  induction H; intros Hi; try contradiction.
  - right. auto.
  - destruct Hi as [[= <- <-]|Hi]; [left; reflexivity|right; auto].
  - apply in_app_or in Hi as [Hi|Hi]; [exfalso; eauto|right; auto].
Qed.
Theorem c84_destroy : forall ws b, read_line ws = Runs b (IDestroyAll true) -> In (L "destroy-all") ws /\ In (L "--yes") ws.
Proof.
  intros ws b H. apply c84_line in H as [n [args [[os [Hs _]] [(F & V & os' & a' & Hy & Hw)|[_ [a' [H _]]]]]]]; [|discriminate].
  apply spelled_rest in Hs as [pre ->]. inversion Hy as [| | | | | | | | | | | | | | | |os1 yes Hf]; subst.
  split; [apply in_or_app; right; left; reflexivity|]. apply in_or_app. right. right.
  destruct (proj1 Hf eq_refl) as [n [y [Hi [<-|[]]]]]. eapply spelled_flag_word; [exact Hw| |exact Hi].
  intros c [Hc|[]]. discriminate.
Qed.

(** ** The process *)
Section Process.
Context {E : Env} {Sh : Shell} {Po : Post}.
Theorem c84_nothing : forall ws inp s, (forall b i, read_line ws <> Runs b i) ->
  exists z, muacrypt ws inp s = (s, Ended z None None false) /\ (z = 0 \/ z = 2)%Z.
Proof.
  intros ws inp s H. unfold muacrypt. destruct (read_line ws) as [| | |b i]; [exists 2%Z|exists 0%Z|exists 0%Z|exfalso; eapply H; reflexivity]; auto.
Qed.
Lemma failed_ends e : ends_with e (failed e).
Proof. unfold ends_with, failed. cbn [en_exit en_started en_mail en_trace]. repeat split; destruct e; cbn; intuition discriminate. Qed.
Lemma carried_command inp i c : carried_out inp i c -> command_of i inp = Some c.
Proof. intros []; reflexivity. Qed.
Theorem c84_command : forall ws b i inp c s, read_line ws = Runs b i -> carried_out inp i c ->
  exists e, muacrypt ws inp s = (left_by s c, e) /\
  match outcome_of s c with
  | Ok p => ends_well (pr_exit p) e /\ en_started e = pr_started p /\ en_mail e = None
  | Err x => ends_with x e
  end.
Proof.
  intros ws b i inp c s Hr Hc. apply carried_command in Hc. unfold muacrypt. rewrite Hr. unfold invoke, left_by, outcome_of. rewrite Hc.
  destruct (arun (command_prog c) s) as [s' [p|x]]; eexists; (split; [reflexivity|]).
  - repeat split.
  - apply failed_ends.
Qed.
Theorem c84_scandir : forall ws b dir reparse inp s, read_line ws = Runs b (IScandir dir reparse) ->
  match in_dir inp dir with
  | Ok files => exists e, muacrypt ws inp s = (after s (ACliScandir reparse files), e) /\ en_started e = None /\ en_mail e = None /\
      match answer s (ACliScandir reparse files) with Ok _ => ends_well 0 e | Err x => ends_with x e end
  | Err x => exists e, muacrypt ws inp s = (s, e) /\ ends_with x e
  end.
Proof.
  intros ws b dir rp inp s Hr. unfold muacrypt. rewrite Hr. unfold invoke. cbn [command_of]. rewrite arun_bind_lift. unfold after, answer. cbn [exec].
  destruct (in_dir inp dir) as [files|x].
  - rewrite arun_bind. destruct (arun (cli_scandir rp files) s) as [s' [l|x]]; eexists; (split; [reflexivity|]).
    + repeat split.
    + split; [reflexivity|]. split; [reflexivity|]. apply failed_ends.
  - eexists. split; [reflexivity|]. apply failed_ends.
Qed.
Theorem c84_bot : forall ws b smtp fb inp s, read_line ws = Runs b (IBotReply smtp fb) ->
  exists s' r e, bot_ends s smtp fb (in_mail inp) s' r /\ muacrypt ws inp s = (s', e) /\
  match r with Ok p => ends_well 0 e /\ en_started e = None /\ en_mail e = po_mail p | Err x => ends_with x e end.
Proof.
  intros ws b smtp fb inp s Hr. unfold muacrypt. rewrite Hr. unfold invoke. cbn [command_of]. unfold bot_ends.
  destruct (arun (bot_command smtp fb (in_mail inp)) s) as [s' [p|x]] eqn:Eb; eexists _, _, _; (split; [reflexivity|]); (split; [reflexivity|]).
  - repeat split.
  - apply failed_ends.
Qed.
Lemma out_started p s r : snd (arun (out p) s) = Ok r -> pr_started r = None.
Proof. rewrite arun_out. cbn [snd]. destruct (snd (arun p s)); cbn [rmap]; [intros [= <-]; reflexivity|discriminate]. Qed.
Theorem c84_started : forall ws inp s s' e argv x, muacrypt ws inp s = (s', e) -> en_started e = Some (argv, x) ->
  exists b rest args path, after_options ws b (L "sendmail" :: rest) /\ passed rest args /\ sendmail_program path /\ argv = path :: args.
Proof.
  intros ws inp s s' e argv x H Hs. unfold muacrypt in H. destruct (read_line ws) as [| | |b i] eqn:Er; try (injection H as <- <-; discriminate).
  destruct (command_of i inp) as [c|] eqn:Ec.
  - unfold invoke in H. rewrite Ec in H. destruct (arun (command_prog c) s) as [s1 [p|y]] eqn:Ea; injection H as <- <-; [|discriminate].
    cbn [en_started] in Hs. assert (Ho : outcome_of s c = Ok p) by (unfold outcome_of; rewrite Ea; reflexivity).
    assert (Hsm : exists args, i = ISendmail args /\ c = CmdSendmail args (in_mail inp)).
    { assert (Hout : forall q, command_prog c = out q -> False).
      { intros q Hq. unfold outcome_of in Ho. rewrite Hq in Ho. apply out_started in Ho. congruence. }
      destruct i; cbn [command_of] in Ec; try discriminate; injection Ec as <-; try (exfalso; eapply Hout; reflexivity); [|eauto].
      exfalso. revert Ho. unfold outcome_of. cbn [command_prog]. destruct yes; [|intros [= <-]; discriminate].
      rewrite arun_bind. destruct (arun mgr_version s) as [s2 [[v|]|z]]; [|intros [= <-]; discriminate|discriminate].
      rewrite arun_bind. destruct (arun remove_all s2) as [s3 [[]|z]]; [intros [= <-]; discriminate|discriminate]. }
    destruct Hsm as [args [-> ->]]. apply c62_sent in Ho as (_ & m' & t & y & path & _ & _ & _ & Hp & Hst & _).
    rewrite Hs in Hst. injection Hst as -> _. apply c84_line in Er as [n [rest [Ha [(F & V & os & a & Hy & _)|[-> [args' [Hi Hpass]]]]]]].
    + inversion Hy.
    + injection Hi as <-. exists b, rest, args, path. auto.
  - unfold invoke in H. rewrite Ec in H. destruct i; try (injection H as <- <-; discriminate).
    + destruct (arun _ s) as [s1 [l|y]]; injection H as <- <-; discriminate.
    + destruct (arun _ s) as [s1 [l|y]]; injection H as <- <-; discriminate.
Qed.
End Process.

(** ** Help, wrong names, the directory *)
Section ClickHelp.
Context {E : Env} {Sh : Shell} {Po : Post}.
Theorem c84_help : forall inp s h, In h help_words -> let ok := (s, Ended 0 None None false) in
  muacrypt [] inp s = ok /\ muacrypt [h] inp s = ok /\ muacrypt [L "--version"] inp s = ok /\
  forall name, In name command_names -> muacrypt [name; h] inp s = ok.
Proof.
  intros inp s h Hh ok.
  assert (K : forall ws, read_line ws = ShowHelp \/ read_line ws = ShowVersion -> muacrypt ws inp s = ok).
  { intros ws H. unfold muacrypt. destruct H as [H|H]; rewrite H; reflexivity. }
  split; [apply K; left; vm_compute; reflexivity|]. split; [apply K; left; destruct Hh as [<-|[<-|[]]]; vm_compute; reflexivity|].
  split; [apply K; right; vm_compute; reflexivity|]. intros name Hn. apply K. left.
  assert (Hf : forallb (fun n => forallb (fun h => match read_line [n; h] with ShowHelp => true | _ => false end) help_words) command_names = true) by (vm_compute; reflexivity).
  rewrite forallb_forall in Hf. specialize (Hf name Hn). rewrite forallb_forall in Hf. specialize (Hf h Hh). destruct (read_line [name; h]); try discriminate Hf. reflexivity.
Qed.
Theorem c84_unknown : forall inp s ws dir name rest, after_options ws dir (name :: rest) -> ~ In name command_names -> looks_like_name name ->
  muacrypt ws inp s = (s, Ended 2 None None false).
Proof.
  intros inp s ws dir name rest Ha Hn [c [r [-> Hc]]]. apply main_words_iff in Ha as [os [Hm _]].
  assert (Hr : read_line ws = BadUsage); [|unfold muacrypt; rewrite Hr; reflexivity].
  unfold read_line. rewrite Hm. destruct (find_command (c :: r)) as [d|] eqn:Ef.
  - exfalso. unfold find_command in Ef. apply find_some in Ef as [Hi He]. apply text_eqb_eq in He. apply Hn. rewrite <- He.
    assert (Hf : forallb (fun d => mem_text (d_name d) command_names) commands = true) by (vm_compute; reflexivity).
    rewrite forallb_forall in Hf. apply mem_text_In. apply Hf. exact Hi.
  - unfold no_command. replace (ascii_alnum_cp c) with true; [reflexivity|]. symmetry. unfold ascii_alnum_cp.
    rewrite !orb_true_iff, !andb_true_iff, !N.leb_le. lia.
Qed.
Theorem c84_mark : forall inp s ws dir name rest, after_options ws dir (name :: rest) -> begins_with_mark name ->
  muacrypt ws inp s = (s, Ended 0 None None false).
Proof.
  intros inp s ws dir name rest Ha [c [r [-> [Hc Hn]]]]. apply main_words_iff in Ha as [os [Hm _]].
  assert (Hr : read_line ws = ShowHelp); [|unfold muacrypt; rewrite Hr; reflexivity].
  assert (Hl : ascii_alnum_cp c = false).
  { destruct (ascii_alnum_cp c) eqn:E1; [|reflexivity]. exfalso. apply Hn. exists c, r. split; [reflexivity|]. revert E1. unfold ascii_alnum_cp.
    rewrite !orb_true_iff, !andb_true_iff, !N.leb_le. lia. }
  unfold read_line. rewrite Hm. destruct (find_command (c :: r)) as [d|] eqn:Ef.
  - exfalso. unfold find_command in Ef. apply find_some in Ef as [Hi He]. apply text_eqb_eq in He.
    assert (Hf : forallb (fun d => match d_name d with x :: _ => ascii_alnum_cp x | [] => false end) commands = true) by (vm_compute; reflexivity).
    rewrite forallb_forall in Hf. specialize (Hf d Hi). cbv beta in Hf. rewrite He, Hl in Hf. discriminate.
  - unfold no_command. rewrite Hl. apply N.ltb_lt in Hc. unfold is_ascii_cp. rewrite Hc. reflexivity.
Qed.
End ClickHelp.
Theorem c84_directory : forall typed environment usual dir, chosen_dir typed environment usual = dir <-> base_directory typed environment usual dir.
Proof.
  intros typed env usual dir. unfold chosen_dir, base_directory. destruct typed as [t|]; [|destruct env as [e|]]; intuition congruence.
Qed.
