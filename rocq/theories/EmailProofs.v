(** Proofs for C94. *)
From Verif Require Import Base PyStr Env Mime EmailText EmailSpec.

Section EmailProofs.
Context {E : Env} {EL : EmailLib}.

(** ** Bytes *)
Lemma to_bytes_ok t : Forall sendable t -> exists b, to_bytes t = Ok b /\ from_bytes b = t /\ length b = length t.
Proof.
  induction 1 as [|c t Hc _ [b [H1 [H2 H3]]]]; [exists []; auto|]. cbn [to_bytes]. rewrite H1. cbn [rbind].
  destruct (N.ltb_spec c 128) as [Hl|Hl].
  - exists (c :: b). split; [reflexivity|]. unfold from_bytes in *. cbn [map length]. rewrite H2, H3.
    destruct (N.ltb_spec c 128); [auto|lia].
  - destruct Hc as [Hc|Hc]; [lia|]. unfold escaped. destruct (N.leb_spec 56448 c), (N.leb_spec c 56575); try lia. cbn [andb].
    eexists. split; [reflexivity|]. unfold from_bytes in *. cbn [map length]. rewrite H2, H3.
    destruct (N.ltb_spec (c - 56320) 128); [lia|]. split; [f_equal; lia|reflexivity].
Qed.
Lemma to_bytes_sendable t b : to_bytes t = Ok b -> Forall sendable t.
Proof.
  revert b. induction t as [|c t IH]; intros b H; [constructor|]. cbn [to_bytes] in H. unfold escaped in H.
  destruct (N.ltb_spec c 128) as [Hl|Hl].
  - destruct (to_bytes t) as [b'|]; [|discriminate]. constructor; [left; exact Hl|eapply IH; reflexivity].
  - destruct (N.leb_spec 56448 c), (N.leb_spec c 56575); try discriminate. cbn [andb] in H.
    destruct (to_bytes t) as [b'|]; [|discriminate]. constructor; [right; lia|eapply IH; reflexivity].
Qed.

(** ** Lines *)
Definition plain_char (c : N) : Prop := c <> 10%N /\ c <> 13%N.
Lemma keep_lines_concat t : concat (keep_lines t) = t.
Proof.
  induction t as [|c t IH]; [reflexivity|]. cbn [keep_lines]. destruct (_ || _); [cbn [concat app]; rewrite IH; reflexivity|].
  destruct (keep_lines t) as [|l ls]; cbn [concat app] in *; rewrite <- IH; reflexivity.
Qed.
Lemma keep_line l r : Forall plain_char l -> keep_lines (l ++ 10%N :: r) = (l ++ [10%N]) :: keep_lines r.
Proof.
  induction 1 as [|c l [H1 H2] _ IH]; [reflexivity|]. cbn [app keep_lines]. rewrite IH.
  destruct (N.eqb_spec c 10); [contradiction|]. destruct (N.eqb_spec c 13); [contradiction|]. reflexivity.
Qed.

Definition ended (l : text) : text := l ++ [10%N].
Lemma keep_lines_pieces t : ~ In 13%N t -> keep_lines (t ++ [10%N]) = map ended (split_on 10 t).
Proof.
  induction t as [|c t IH]; intros H; [reflexivity|]. assert (H' : ~ In 13%N t) by (intros Hi; apply H; right; exact Hi).
  cbn [app keep_lines split_on]. rewrite (IH H'). destruct (N.eqb_spec c 10) as [->|H1]; [reflexivity|].
  destruct (N.eqb_spec c 13) as [->|H2]; [destruct H; left; reflexivity|]. cbn [andb orb].
  destruct (split_on 10 t) as [|l ls] eqn:Es; [destruct (split_on_nonnil _ _ Es)|]. reflexivity.
Qed.
Lemma keep_lines_app a b : ~ In 13%N a -> keep_lines ((a ++ [10%N]) ++ b) = keep_lines (a ++ [10%N]) ++ keep_lines b.
Proof.
  induction a as [|c a IH]; intros H; [reflexivity|]. assert (H' : ~ In 13%N a) by (intros Hi; apply H; right; exact Hi).
  cbn [app keep_lines]. rewrite (IH H'). destruct (N.eqb_spec c 10) as [->|H1]; [reflexivity|].
  destruct (N.eqb_spec c 13) as [->|H2]; [destruct H; left; reflexivity|]. cbn [andb orb].
  destruct (keep_lines (a ++ [10%N])) as [|l ls] eqn:Ek; [|reflexivity].
  rewrite keep_lines_pieces in Ek by exact H'. apply map_eq_nil in Ek. destruct (split_on_nonnil _ _ Ek).
Qed.
Lemma chomp_lf t : ~ In 13%N t -> chomp (t ++ [10%N]) = t.
Proof.
  intros H. unfold chomp. rewrite rev_app_distr. cbn [rev app]. rewrite N.eqb_refl. destruct (rev t) as [|d r] eqn:Er.
  - apply (f_equal (@rev N)) in Er. rewrite rev_involutive in Er. symmetry. exact Er.
  - destruct (N.eqb_spec d 13) as [->|Hd].
    + destruct H. apply in_rev. rewrite Er. left. reflexivity.
    + rewrite <- Er, rev_involutive. reflexivity.
Qed.

(** ** The text of a mail *)
Definition mangled (l : text) : text := if startswith (L "From ") l then 62%N :: l else l.
Lemma from_in_line t : startswith (L "From ") t = startswith (L "From ") (hd [] (split_on 10 t)).
Proof.
  destruct t as [|c0 t]; [reflexivity|].
  assert (H : forall p, ~ In 10%N p -> forall t, startswith p t = startswith p (hd [] (split_on 10 t))).
  { induction p as [|x p IH]; intros Hp s; [reflexivity|]. destruct s as [|y s]; [reflexivity|]. cbn [split_on].
    destruct (N.eqb_spec y 10) as [->|Hy].
    - cbn [hd startswith]. destruct (N.eqb_spec x 10) as [->|]; [destruct Hp; left; reflexivity|reflexivity].
    - assert (Hp' : ~ In 10%N p) by (intros Hi; apply Hp; right; exact Hi). specialize (IH Hp' s).
      destruct (split_on 10 s) as [|l ls] eqn:Es; [destruct (split_on_nonnil _ _ Es)|]. cbn [hd startswith] in *. rewrite IH. reflexivity. }
  apply H. vm_compute. intuition discriminate.
Qed.
Lemma mangle_lines t : 
  mangle true t = join [10%N] (map mangled (split_on 10 t)) /\
  mangle false t = join [10%N] (hd [] (split_on 10 t) :: map mangled (tl (split_on 10 t))).
Proof.
  induction t as [|c t [IH1 IH2]]; [split; reflexivity|].
  assert (Hf : mangle false (c :: t) = join [10%N] (hd [] (split_on 10 (c :: t)) :: map mangled (tl (split_on 10 (c :: t))))).
  { cbn [mangle andb app split_on]. destruct (N.eqb_spec c 10) as [->|Hc].
    - cbn [hd tl]. rewrite IH1. destruct (map mangled (split_on 10 t)) as [|l ls] eqn:El; [|reflexivity].
      apply map_eq_nil in El. destruct (split_on_nonnil _ _ El).
    - rewrite IH2. destruct (split_on 10 t) as [|l ls]; cbn [hd tl map join]; [reflexivity|]. destruct (map mangled ls); reflexivity. }
  split; [|exact Hf].
  destruct (startswith (L "From ") (c :: t)) eqn:Es.
  - assert (Em : mangle true (c :: t) = 62%N :: mangle false (c :: t)) by (cbn [mangle]; rewrite Es; reflexivity).
    rewrite Em, Hf. rewrite from_in_line in Es. destruct (split_on 10 (c :: t)) as [|l ls]; [discriminate|]. cbn [hd tl map] in *. unfold mangled at 2. rewrite Es.
    cbn [join]. destruct (map mangled ls); reflexivity.
  - assert (Em : mangle true (c :: t) = mangle false (c :: t)) by (cbn [mangle]; rewrite Es; reflexivity).
    rewrite Em, Hf. rewrite from_in_line in Es. destruct (split_on 10 (c :: t)) as [|l ls] eqn:El; [destruct (split_on_nonnil _ _ El)|].
    cbn [hd tl map] in *. unfold mangled at 2. rewrite Es. reflexivity.
Qed.
Lemma from_line_starts l : startswith (L "From ") l = true <-> from_line l.
Proof. apply startswith_spec. Qed.
Lemma mangle_id t : (forall l, line_in t l -> ~ from_line l) -> mangle true t = t.
Proof.
  intros H. rewrite (proj1 (mangle_lines t)). rewrite <- (join_split_on 10 t) at 2. f_equal. unfold line_in in H.
  induction (split_on 10 t) as [|l ls IH]; [reflexivity|]. cbn [map]. rewrite IH by (intros x Hx; apply H; right; exact Hx). f_equal.
  unfold mangled. destruct (startswith (L "From ") l) eqn:Es; [|reflexivity]. apply from_line_starts in Es. destruct (H l); [left; reflexivity|exact Es].
Qed.
Lemma mangle_longer b t : (length t <= length (mangle b t))%nat.
Proof. revert b. induction t as [|c t IH]; intros b; [apply le_n|]. cbn [mangle]. rewrite app_length. cbn [length]. specialize (IH (N.eqb c 10)). lia. Qed.
Lemma join_length (ls ms : list text) : Forall2 (fun a b => (length a <= length b)%nat) ls ms -> (exists i, (length (nth i ls []) < length (nth i ms []))%nat) ->
  (length (join [10%N] ls) < length (join [10%N] ms))%nat.
Proof.
  assert (Hle : forall (ls ms : list text), Forall2 (fun a b => (length a <= length b)%nat) ls ms -> (length (join [10%N] ls) <= length (join [10%N] ms))%nat).
  { induction 1 as [|a b l m H1 H2 IH]; [apply le_n|]. destruct H2 as [|a' b' l m H2 H3]; [exact H1|]. 
    change (length (a ++ [10%N] ++ join [10%N] (a' :: l)) <= length (b ++ [10%N] ++ join [10%N] (b' :: m)))%nat. rewrite !app_length. cbn [length]. lia. }
  induction 1 as [|a b l m H1 H2 IH]; intros [i Hi]; [destruct i; cbn in Hi; lia|].
  destruct H2 as [|a' b' l m H2 H3].
  - destruct i as [|i]; [exact Hi|]. cbn in Hi. destruct i; cbn in Hi; lia.
  - change (length (a ++ [10%N] ++ join [10%N] (a' :: l)) < length (b ++ [10%N] ++ join [10%N] (b' :: m)))%nat. rewrite !app_length. cbn [length].
    destruct i as [|i]; cbn [nth] in Hi.
    + specialize (Hle (a' :: l) (b' :: m)). assert (length (join [10%N] (a' :: l)) <= length (join [10%N] (b' :: m)))%nat by (apply Hle; constructor; assumption). lia.
    + assert (length (join [10%N] (a' :: l)) < length (join [10%N] (b' :: m)))%nat by (apply IH; exists i; exact Hi). lia.
Qed.
Lemma mangle_changes t l : line_in t l -> from_line l -> mangle true t <> t.
Proof.
  intros H Hf He. apply (f_equal (@length N)) in He. rewrite (proj1 (mangle_lines t)) in He. rewrite <- (join_split_on 10 t) in He at 2.
  assert (Hlt : (length (join [10%N] (split_on 10 t)) < length (join [10%N] (map mangled (split_on 10 t))))%nat); [|lia].
  apply join_length.
  - clear. induction (split_on 10 t) as [|l ls IH]; [constructor|]. constructor; [|exact IH]. unfold mangled. destruct (startswith _ l); cbn [length]; lia.
  - unfold line_in in H. apply (In_nth _ _ []) in H as [i [Hi Hn]]. exists i. 
    assert (Em : nth i (map mangled (split_on 10 t)) [] = mangled l) by (rewrite <- Hn; exact (map_nth mangled (split_on 10 t) [] i)).
    assert (Hl : (length l < length (mangled l))%nat) by (unfold mangled; apply from_line_starts in Hf; rewrite Hf; cbn [length]; lia).
    rewrite <- Em in Hl. rewrite <- Hn in Hl at 1. exact Hl.
Qed.
Lemma norm_nl_id t : ~ In 13%N t -> norm_nl t = t.
Proof.
  induction t as [|c t IH]; intros H; [reflexivity|]. cbn [norm_nl]. destruct (N.eqb_spec c 13) as [->|Hc]; [destruct H; left; reflexivity|].
  rewrite IH by (intros Hi; apply H; right; exact Hi). reflexivity.
Qed.
Lemma norm_nl_no_cr t : ~ In 13%N (norm_nl t).
Proof.
  induction t as [|c t IH]; [exact (fun H => H)|]. cbn [norm_nl]. destruct (N.eqb_spec c 13) as [->|Hc].
  - destruct (at_lf t); [exact IH|]. intros [H|H]; [discriminate|exact (IH H)].
  - intros [H|H]; [exact (Hc H)|exact (IH H)].
Qed.
Lemma mangle_in b t c : In c (mangle b t) -> c = 62%N \/ In c t.
Proof.
  revert b. induction t as [|x t IH]; intros b H; [right; exact H|]. cbn [mangle] in H. apply in_app_or in H as [H|[H|H]].
  - destruct (b && _); [destruct H as [<-|[]]; left; reflexivity|destruct H].
  - right. left. exact H.
  - apply IH in H as [H|H]; [left; exact H|right; right; exact H].
Qed.
Lemma norm_nl_in t c : In c (norm_nl t) -> c = 10%N \/ In c t.
Proof.
  induction t as [|x t IH]; intros H; [destruct H|]. cbn [norm_nl] in H. destruct (N.eqb x 13).
  - destruct (at_lf t); [apply IH in H as [H|H]; [left; exact H|right; right; exact H]|]. destruct H as [H|H]; [left; symmetry; exact H|].
    apply IH in H as [H|H]; [left; exact H|right; right; exact H].
  - destruct H as [H|H]; [right; left; exact H|apply IH in H as [H|H]; [left; exact H|right; right; exact H]].
Qed.

(** ** Header fields *)
Lemma split_on_join l ls : Forall (fun l => ~ In 10%N l) (l :: ls) -> split_on 10 (join [10%N] (l :: ls)) = l :: ls.
Proof.
  revert l. induction ls as [|l' ls IH]; intros l H; inversion H as [|x y Hl Hls]; subst.
  - apply split_on_no. intros c Hc ->. exact (Hl Hc).
  - change (split_on 10 (l ++ 10%N :: join [10%N] (l' :: ls)) = l :: l' :: ls). rewrite split_on_app by (intros c Hc ->; exact (Hl Hc)). rewrite IH by exact Hls. reflexivity.
Qed.
Lemma visible_plain l : visible l -> Forall plain_char l.
Proof. intros [H _]. eapply Forall_impl; [|exact H]. intros c Hc. cbn beta in Hc. unfold plain_char. lia. Qed.
Lemma visible_ends l : visible l -> printable l && no_blank_end l = true.
Proof.
  intros [H1 H2]. apply andb_true_iff. split.
  - apply forallb_forall. rewrite Forall_forall in H1. intros c Hc. specialize (H1 c Hc). cbn beta in H1. apply andb_true_iff. split; apply N.leb_le; lia.
  - unfold no_blank_end. destruct (rev l) as [|c r] eqn:Er; [reflexivity|]. unfold blank. destruct (N.eqb_spec c 32) as [->|]; [|reflexivity].
    destruct (H2 (rev r)). apply (f_equal (@rev N)) in Er. rewrite rev_involutive in Er. exact Er.
Qed.
Lemma drop_blanks_words k w : drop_blanks (repeat 32%N k ++ w) = drop_blanks w.
Proof. induction k as [|k IH]; [reflexivity|exact IH]. Qed.
Lemma drop_blanks_none w : ~ In 32%N w -> existsb blank (drop_blanks w) = false.
Proof.
  intros H. assert (Hd : drop_blanks w = w).
  { destruct w as [|c w]; [reflexivity|]. cbn [drop_blanks]. unfold blank. destruct (N.eqb_spec c 32) as [->|]; [destruct H; left; reflexivity|reflexivity]. }
  rewrite Hd. destruct (existsb blank w) eqn:Ex; [|reflexivity]. apply existsb_exists in Ex as [c [Hi Hc]]. apply N.eqb_eq in Hc. subst c. contradiction.
Qed.
Definition next_line (q : bool) (l : text) : Prop := visible l /\ (exists l', l = 32%N :: l') /\ (q = true -> (length l <= 78)%nat \/ one_word l).
Lemma plain_fits q w n v : plain_field q (n, v) -> (q = false -> w = true) -> fits w n v = true.
Proof.
  intros [_ [_ [l [ls [Hv [H1 [H2 [H3 H4]]]]]]]] Hq. cbn [fst snd] in *. unfold fits. rewrite Hv, split_on_join.
  - apply andb_true_iff. split.
    + unfold first_fits. rewrite (visible_ends l H1). cbn [andb]. apply andb_true_iff. split; [|destruct q; [apply orb_true_iff; right; apply Nat.leb_le; exact (H3 eq_refl)|rewrite (Hq eq_refl); reflexivity]].
      destruct l as [|c l]; [reflexivity|]. unfold blank. destruct (N.eqb_spec c 32) as [->|]; [destruct (H2 l eq_refl)|reflexivity].
    + apply forallb_forall. rewrite Forall_forall in H4. intros x Hx. destruct (H4 x Hx) as [K1 [[x' ->] K3]]. unfold next_fits. rewrite (visible_ends _ K1). change (blank 32) with true.
      cbn [andb]. destruct q; [|rewrite (Hq eq_refl); reflexivity]. apply orb_true_iff. destruct (K3 eq_refl) as [K5|[k [w' [K5 K4]]]]; [left; apply orb_true_iff; right; apply Nat.leb_le; exact K5|right]. rewrite K5, drop_blanks_words, drop_blanks_none by exact K4. reflexivity.
  - assert (Hn : forall x, visible x -> ~ In 10%N x) by (intros x Hx Hi; apply visible_plain in Hx; rewrite Forall_forall in Hx; destruct (Hx _ Hi) as [Hx' _]; exact (Hx' eq_refl)).
    constructor; [apply Hn, H1|]. eapply Forall_impl; [|exact H4]. intros x [Hx _]. apply Hn, Hx.
Qed.

(** the lines of a field *)
Definition field_as_lines (f : text * text) : list text :=
  match split_on 10 (snd f) with l :: ls => (fst f ++ L ": " ++ l ++ [10%N]) :: map ended ls | [] => [] end.
Lemma written_plain q w f : plain_field q f -> (q = false -> w = true) -> write_field w f = fst f ++ L ": " ++ snd f ++ [10%N].
Proof. destruct f as [n v]. intros H Hq. unfold write_field. cbn [fst snd]. rewrite (plain_fits q w n v H Hq). rewrite <- !app_assoc. reflexivity. Qed.
Lemma plain_name q n v : plain_field q (n, v) -> Forall plain_char n.
Proof. intros [_ [H _]]. eapply Forall_impl; [|exact H]. intros c Hc. cbn beta in Hc. unfold plain_char. lia. Qed.
Lemma keep_join l ls r : Forall (Forall plain_char) (l :: ls) -> keep_lines (join [10%N] (l :: ls) ++ 10%N :: r) = map ended (l :: ls) ++ keep_lines r.
Proof.
  revert l. induction ls as [|l' ls IH]; intros l H; inversion H as [|x y Hl Hls]; subst.
  - cbn [join map app]. apply keep_line. exact Hl.
  - change (keep_lines ((l ++ 10%N :: join [10%N] (l' :: ls)) ++ 10%N :: r) = map ended (l :: l' :: ls) ++ keep_lines r).
    rewrite <- app_assoc. cbn [app]. rewrite keep_line by exact Hl. rewrite IH by exact Hls. reflexivity.
Qed.
Lemma plain_parts q n v : plain_field q (n, v) -> exists l ls, v = join [10%N] (l :: ls) /\ split_on 10 v = l :: ls /\ visible l /\ (forall l', l <> 32%N :: l') /\ Forall (next_line q) ls.
Proof.
  intros [_ [_ [l [ls [Hv [H1 [H2 [H3 H4]]]]]]]]. cbn [fst snd] in *. exists l, ls. split; [exact Hv|]. split; [|split; [exact H1|split; [exact H2|exact H4]]].
  rewrite Hv. apply split_on_join.
  assert (Hn : forall x, visible x -> ~ In 10%N x) by (intros x Hx Hi; apply visible_plain in Hx; rewrite Forall_forall in Hx; destruct (Hx _ Hi) as [Hx' _]; exact (Hx' eq_refl)).
  constructor; [apply Hn, H1|]. eapply Forall_impl; [|exact H4]. intros x [Hx _]. apply Hn, Hx.
Qed.
Lemma keep_field q w f r : plain_field q f -> (q = false -> w = true) -> keep_lines (write_field w f ++ r) = field_as_lines f ++ keep_lines r.
Proof.
  intros H Hq. rewrite (written_plain q) by assumption. destruct f as [n v]. cbn [fst snd]. pose proof (plain_name q n v H) as Hn.
  destruct (plain_parts q n v H) as [l [ls [Hv [Hs [H1 [H2 H3]]]]]]. unfold field_as_lines. cbn [fst snd]. rewrite Hs, Hv.
  assert (Hj : n ++ L ": " ++ join [10%N] (l :: ls) ++ [10%N] = join [10%N] ((n ++ L ": " ++ l) :: ls) ++ [10%N]).
  { destruct ls as [|l' ls]; [cbn [join]; rewrite <- !app_assoc; reflexivity|].
    change (n ++ L ": " ++ (l ++ [10%N] ++ join [10%N] (l' :: ls)) ++ [10%N] = ((n ++ L ": " ++ l) ++ [10%N] ++ join [10%N] (l' :: ls)) ++ [10%N]). rewrite <- !app_assoc. reflexivity. }
  rewrite Hj, <- app_assoc. cbn [app]. rewrite keep_join.
  - cbn [map app]. unfold ended at 1. rewrite <- !app_assoc. reflexivity.
  - constructor.
    + apply Forall_app. split; [exact Hn|]. apply Forall_app. split; [|apply visible_plain, H1]. repeat constructor; discriminate.
    + eapply Forall_impl; [|exact H3]. intros x [Hx _]. apply visible_plain, Hx.
Qed.
Lemma keep_fields q w h r : Forall (plain_field q) h -> (q = false -> w = true) -> keep_lines (concat (map (write_field w) h) ++ r) = concat (map field_as_lines h) ++ keep_lines r.
Proof.
  intros H Hq. induction H as [|f h Hf _ IH]; [reflexivity|]. cbn [map concat]. rewrite <- !app_assoc, (keep_field q) by assumption. rewrite IH. reflexivity.
Qed.

Definition field_line (l : text) : Prop := header_line l = true /\ startswith (L "From ") l = false.
Lemma named_name n r : Forall (fun c => 33 <= c <= 126 /\ c <> 58)%N n -> named_line (n ++ 58%N :: r) = true.
Proof.
  induction 1 as [|c n [H1 H2] _ IH]; [reflexivity|]. cbn [app named_line]. rewrite IH. unfold name_char.
  destruct (N.leb_spec 33 c), (N.leb_spec c 126), (N.eqb_spec c 58); try lia; reflexivity.
Qed.
Lemma no_from n r : Forall (fun c => 33 <= c <= 126 /\ c <> 58)%N n -> startswith (L "From ") (n ++ 58%N :: r) = false.
Proof.
  intros H. destruct (startswith _ _) eqn:Es; [|reflexivity]. apply startswith_spec in Es as [q Es].
  assert (Hp : forall p n, ~ In 58%N p -> n ++ 58%N :: r = p ++ q -> exists n', n = p ++ n').
  { induction p as [|x p IH]; intros n0 Hx He; [exists n0; reflexivity|]. destruct n0 as [|y n0]; [injection He as <- _; destruct Hx; left; reflexivity|].
    injection He as -> He. destruct (IH n0) as [n' ->]; [intros Hi; apply Hx; right; exact Hi|exact He|]. exists n'. reflexivity. }
  apply Hp in Es as [n' ->]; [|vm_compute; intuition discriminate]. rewrite Forall_forall in H. destruct (H 32%N) as [H1 _]; [|lia].
  apply in_or_app. left. vm_compute. tauto.
Qed.
Lemma field_lines_ok q f : plain_field q f -> Forall field_line (field_as_lines f).
Proof.
  destruct f as [n v]. intros H. destruct (plain_parts q n v H) as [l [ls [Hv [Hs [H1 [H2 H3]]]]]]. destruct H as [_ [Hn _]]. cbn [fst] in Hn.
  unfold field_as_lines. cbn [fst snd]. rewrite Hs. constructor.
  - unfold field_line, header_line. change (n ++ L ": " ++ l ++ [10%N]) with (n ++ 58%N :: (32%N :: l ++ [10%N])). rewrite (named_name _ _ Hn), (no_from _ _ Hn). auto.
  - apply Forall_map. eapply Forall_impl; [|exact H3]. intros x [_ [[x' ->] _]]. split; reflexivity.
Qed.
Lemma head_lines_app hl r : Forall field_line hl -> head_lines (hl ++ [10%N] :: r) = (hl, r).
Proof. induction 1 as [|l hl [H1 _] _ IH]; [reflexivity|]. cbn [app head_lines]. rewrite H1, IH. reflexivity. Qed.
Lemma give_back_none hl r : Forall field_line hl -> give_back hl r = (hl, r).
Proof.
  intros H. unfold give_back. destruct (rev hl) as [|l [|l' r']] eqn:Er; try reflexivity.
  assert (Hi : In l hl) by (apply in_rev; rewrite Er; left; reflexivity). rewrite Forall_forall in H. destruct (H l Hi) as [_ ->]. reflexivity.
Qed.

Lemma until_name n r : Forall (fun c => 33 <= c <= 126 /\ c <> 58)%N n -> until_colon (n ++ 58%N :: r) = n /\ after_colon (n ++ 58%N :: r) = r.
Proof.
  induction 1 as [|c n [_ H2] _ [IH1 IH2]]; [split; reflexivity|]. cbn [app until_colon after_colon]. destruct (N.eqb_spec c 58); [contradiction|]. rewrite IH1, IH2. auto.
Qed.
Lemma drop_end_lf t : (forall t' c, t = t' ++ [c] -> c <> 10%N /\ c <> 13%N) -> drop_end (fun c => N.eqb c 10 || N.eqb c 13) (t ++ [10%N]) = t.
Proof.
  intros H. unfold drop_end. rewrite rev_app_distr. cbn [rev app drop_while]. rewrite N.eqb_refl. cbn [orb]. destruct (rev t) as [|c r] eqn:Er.
  - apply (f_equal (@rev N)) in Er. rewrite rev_involutive in Er. symmetry. exact Er.
  - cbn [drop_while]. pose proof (f_equal (@rev N) Er) as Et. rewrite rev_involutive in Et. cbn [rev] in Et. destruct (H (rev r) c Et) as [H1 H2].
    destruct (N.eqb_spec c 10); [contradiction|]. destruct (N.eqb_spec c 13); [contradiction|]. cbn [orb]. rewrite <- Er, rev_involutive. reflexivity.
Qed.
Lemma join_ends q l ls t c : Forall plain_char l -> Forall (next_line q) ls -> join [10%N] (l :: ls) = t ++ [c] -> c <> 10%N /\ c <> 13%N.
Proof.
  revert l t. induction ls as [|l' ls IH]; intros l t Hl Hls He.
  - cbn [join] in He. subst l. apply Forall_app in Hl as [_ Hl]. inversion Hl; subst. assumption.
  - inversion Hls as [|x y Hx Hy]; subst. change (l ++ [10%N] ++ join [10%N] (l' :: ls) = t ++ [c]) in He.
    assert (Hne : join [10%N] (l' :: ls) <> []). { destruct Hx as [_ [[l'' ->] _]]. destruct ls; discriminate. }
    destruct (exists_last Hne) as [t' [c' Ht']]. rewrite Ht', !app_assoc in He. apply app_inj_tail in He as [_ <-].
    apply (IH l' t'); [apply visible_plain, Hx|exact Hy|exact Ht'].
Qed.
Lemma conts_lines q ls r fs : Forall (next_line q) ls -> field_lines r = ([], fs) ->
  field_lines (map ended ls ++ r) = (map ended ls, fs).
Proof.
  intros H Hr. induction H as [|l ls [_ [[l' ->] _]] _ IH]; [exact Hr|]. cbn [map app field_lines]. rewrite IH. reflexivity.
Qed.
Lemma concat_lines l ls : concat (map ended (l :: ls)) = join [10%N] (l :: ls) ++ [10%N].
Proof.
  revert l. induction ls as [|l' ls IH]; intros l; [cbn [map concat join]; rewrite app_nil_r; reflexivity|].
  change ((l ++ [10%N]) ++ concat (map ended (l' :: ls)) = (l ++ [10%N] ++ join [10%N] (l' :: ls)) ++ [10%N]). rewrite IH, <- !app_assoc. reflexivity.
Qed.
Lemma fields_back q h : Forall (plain_field q) h -> field_lines (concat (map field_as_lines h)) = ([], h).
Proof.
  induction 1 as [|[n v] h Hf _ IH]; [reflexivity|]. cbn [map concat].
  destruct (plain_parts q n v Hf) as [l [ls [Hv [Hs [H1 [H2 H3]]]]]]. pose proof (plain_name q n v Hf) as Hpn. destruct Hf as [Hne [Hn _]]. cbn [fst] in Hn, Hne.
  unfold field_as_lines at 1. cbn [fst snd]. rewrite Hs. cbn [app field_lines]. rewrite (conts_lines q _ _ _ H3 IH).
  change (n ++ L ": " ++ l ++ [10%N]) with (n ++ 58%N :: (32%N :: l ++ [10%N])). destruct (until_name n (32%N :: l ++ [10%N]) Hn) as [U1 U2].
  rewrite (no_from _ _ Hn), U1.
  assert (Hc : continues (n ++ 58%N :: 32%N :: l ++ [10%N]) = false).
  { destruct n as [|c n]; [reflexivity|]. inversion Hn as [|? ? Hc]; subst. cbn [app continues]. unfold blank_or_tab. destruct (N.eqb_spec c 32), (N.eqb_spec c 9); try lia; reflexivity. }
  rewrite Hc. assert (Hval : field_value (n ++ 58%N :: 32%N :: l ++ [10%N]) (map ended ls) = v).
  { unfold field_value. rewrite U2. cbn [drop_while]. change (blank_or_tab 32) with true. cbn iota.
    assert (Hd : drop_while blank_or_tab (l ++ [10%N]) = l ++ [10%N]).
    { destruct l as [|c l]; [reflexivity|]. cbn [app drop_while]. unfold blank_or_tab. destruct H1 as [H1 _]. inversion H1 as [|? ? Hc1]; subst.
      destruct (N.eqb_spec c 32) as [->|]; [destruct (H2 l eq_refl)|]. destruct (N.eqb_spec c 9); [lia|reflexivity]. }
    rewrite Hd. change ((l ++ [10%N]) ++ concat (map ended ls)) with (concat (map ended (l :: ls))).
    rewrite concat_lines, drop_end_lf; [symmetry; exact Hv|]. intros t c He. eapply join_ends; [apply visible_plain, H1|exact H3|exact He]. }
  rewrite Hval. destruct n as [|c n]; [contradiction|reflexivity].
Qed.

(** the header is read back, whatever follows *)
Lemma head_back q w h r : Forall (plain_field q) h -> (q = false -> w = true) ->
  let (hl0, rest0) := head_lines (keep_lines ((concat (map (write_field w) h) ++ [10%N]) ++ r)) in
  let (hl, rest) := give_back hl0 rest0 in snd (field_lines hl) = h /\ rest = keep_lines r.
Proof.
  intros H Hq. rewrite <- app_assoc, (keep_fields q) by assumption.
  assert (Hl : Forall field_line (concat (map field_as_lines h))).
  { induction H as [|f h Hf _ IH]; [constructor|]. cbn [map concat]. apply Forall_app. split; [apply (field_lines_ok q), Hf|exact IH]. }
  change (keep_lines ([10%N] ++ r)) with ([10%N] :: keep_lines r). rewrite head_lines_app by exact Hl. rewrite give_back_none by exact Hl.
  rewrite (fields_back q) by exact H. auto.
Qed.

(** ** Content types *)
Lemma ct_slash m : exists a r, get_content_type m = a ++ 47%N :: r /\ main_type (get_content_type m) = a.
Proof.
  assert (Hi : In 47%N (get_content_type m)).
  { unfold get_content_type. destruct (hget m _) as [v|]; [|vm_compute; tauto]. cbv zeta. set (ct := lower _). destruct (Nat.eqb_spec (count_cp 47 ct) 1) as [Hc|]; [|vm_compute; tauto].
    unfold count_cp in Hc. destruct (filter (N.eqb 47) ct) as [|c l] eqn:Ef; [discriminate|]. assert (Hf : In c (filter (N.eqb 47) ct)) by (rewrite Ef; left; reflexivity).
    apply filter_In in Hf as [Hf Hq]. apply N.eqb_eq in Hq. subst c. exact Hf. }
  set (ct := get_content_type m) in *. clearbody ct. pose proof (join_split_on 47 ct) as Hj. pose proof (split_on_parts 47 ct) as Hp. unfold main_type.
  destruct (split_on 47 ct) as [|a [|b ls]] eqn:Es; [destruct (split_on_nonnil _ _ Es)| |].
  - cbn [join] in Hj. subst a. inversion Hp; subst. contradiction.
  - exists a, (join [47%N] (b :: ls)). cbn [hd]. split; [symmetry; exact Hj|reflexivity].
Qed.
Lemma same_kind h b : kind_of (Msg h b) = kind_of (Msg h PNone). Proof. reflexivity. Qed.
Lemma kind_text h b : text_type h -> kind_of (Msg h b) = KText.
Proof.
  intros H. rewrite same_kind. unfold kind_of. cbv zeta. destruct (ct_slash (Msg h PNone)) as [a [r [H1 H2]]]. destruct (H r) as [K1 K2].
  rewrite H2. destruct (text_eqb a (L "multipart")) eqn:E1; [apply text_eqb_eq in E1; rewrite E1 in H1; destruct (K1 H1)|].
  destruct (text_eqb a (L "message")) eqn:E2; [apply text_eqb_eq in E2; rewrite E2 in H1; destruct (K2 H1)|]. reflexivity.
Qed.
Lemma kind_parts h bd b : parts_type h bd -> exists w, kind_of (Msg h b) = KMulti w (Some bd).
Proof.
  intros [[r [H1 H2]] [[v [H3 H4]] _]]. rewrite same_kind. unfold kind_of. cbv zeta. rewrite H1.
  assert (Hm : main_type (L "multipart/" ++ r) = L "multipart").
  { unfold main_type. change (L "multipart/" ++ r) with (L "multipart" ++ 47%N :: r). rewrite split_on_app; [reflexivity|]. intros c Hc ->. revert Hc. vm_compute. intuition discriminate. }
  rewrite Hm. change (text_eqb (L "multipart") (L "multipart")) with true. cbn iota.
  destruct (text_eqb (L "multipart/" ++ r) (L "multipart/digest")) eqn:Ed.
  - apply text_eqb_eq in Ed. change (L "multipart/digest") with (L "multipart/" ++ L "digest") in Ed. apply app_inv_head in Ed. contradiction.
  - rewrite H3, H4. eexists. reflexivity.
Qed.

(** ** Delimiters *)
Lemma without_prefix_app p r : without_prefix p (p ++ r) = Some r.
Proof. induction p as [|c p IH]; [reflexivity|]. cbn [app without_prefix]. rewrite N.eqb_refl. exact IH. Qed.
Lemma without_prefix_inv p t r : without_prefix p t = Some r -> t = p ++ r.
Proof.
  revert t. induction p as [|c p IH]; intros t H; [injection H as ->; reflexivity|]. destruct t as [|d t]; [discriminate|]. cbn [without_prefix] in H.
  destruct (N.eqb_spec c d) as [->|]; [|discriminate]. cbn [app]. f_equal. apply IH, H.
Qed.
Lemma blanks_spec w : forallb blank_or_tab w = true -> Forall (fun c => c = 32 \/ c = 9)%N w.
Proof.
  intros H. apply Forall_forall. intros c Hc. rewrite forallb_forall in H. specialize (H c Hc). unfold blank_or_tab in H. apply orb_true_iff in H as [H|H]; apply N.eqb_eq in H; auto.
Qed.
Definition start_line (b : text) : text := ended (L "--" ++ b).
Definition end_line (b : text) : text := ended (L "--" ++ b ++ L "--").
Definition bd_ok (b : text) : Prop := b <> [] /\ Forall (fun c => c < 128 /\ c <> 10 /\ c <> 13)%N b.
Lemma bd_no_cr b x y : bd_ok b -> ~ In 13%N x -> ~ In 13%N y -> ~ In 13%N (x ++ b ++ y).
Proof.
  intros [_ H] Hx Hy Hi. rewrite !in_app_iff in Hi. destruct Hi as [Hi|[Hi|Hi]]; [exact (Hx Hi)| |exact (Hy Hi)]. rewrite Forall_forall in H. destruct (H _ Hi) as [_ [_ Hn]]. exact (Hn eq_refl).
Qed.
Lemma delim_start b : bd_ok b -> delim b (start_line b) = Some false.
Proof.
  intros H. unfold delim, start_line, ended. rewrite chomp_lf.
  - rewrite <- (app_nil_r (L "--" ++ b)) at 2. rewrite without_prefix_app. reflexivity.
  - rewrite <- (app_nil_r b). apply bd_no_cr; [exact H|vm_compute; intuition discriminate|exact (fun F => F)].
Qed.
Lemma delim_end b : bd_ok b -> delim b (end_line b) = Some true.
Proof.
  intros H. unfold delim, end_line, ended. rewrite chomp_lf by (apply bd_no_cr; [exact H| |]; vm_compute; intuition discriminate).
  rewrite app_assoc, without_prefix_app. reflexivity.
Qed.
Lemma delim_none b l : ~ In 13%N l -> ~ delimiter b l -> delim b (ended l) = None.
Proof.
  intros Hc H. unfold delim, ended. rewrite chomp_lf by exact Hc. destruct (without_prefix (L "--" ++ b) l) as [r|] eqn:Er; [|reflexivity].
  apply without_prefix_inv in Er. destruct (forallb blank_or_tab r) eqn:Ef.
  - destruct H. exists r. split; [left; rewrite Er, <- app_assoc; reflexivity|apply blanks_spec, Ef].
  - destruct (without_prefix (L "--") r) as [r'|] eqn:Er'; [|reflexivity]. apply without_prefix_inv in Er'. destruct (forallb blank_or_tab r') eqn:Ef'; [|reflexivity].
    destruct H. exists r'. split; [right; rewrite Er, Er', <- app_assoc; reflexivity|apply blanks_spec, Ef'].
Qed.

(** ** Parts *)
Lemma part_more b ls d r : Forall (fun l => delim b l = None) ls -> delim b d = Some false -> part_lines b false (ls ++ d :: r) = ls :: part_lines b true r.
Proof. intros H Hd. induction H as [|l ls Hl _ IH]; cbn [app part_lines]; [rewrite Hd; reflexivity|]. rewrite Hl, IH. reflexivity. Qed.
Lemma part_last b ls d r : Forall (fun l => delim b l = None) ls -> delim b d = Some true -> part_lines b false (ls ++ d :: r) = [ls].
Proof. intros H Hd. induction H as [|l ls Hl _ IH]; cbn [app part_lines]; [rewrite Hd; reflexivity|]. rewrite Hl, IH. reflexivity. Qed.
Lemma part_fresh b l ls : delim b l = None -> part_lines b true (l :: ls) = part_lines b false (l :: ls).
Proof. intros H. cbn [part_lines]. rewrite H. reflexivity. Qed.
Definition part_text (b t : text) : Prop := ~ In 13%N t /\ (forall l, line_in t l -> ~ delimiter b l).
Lemma part_text_lines b t : part_text b t -> Forall (fun l => delim b l = None) (keep_lines (t ++ [10%N])) /\ keep_lines (t ++ [10%N]) <> [].
Proof.
  intros [H1 H2]. rewrite keep_lines_pieces by exact H1. split.
  - apply Forall_map, Forall_forall. intros l Hl. apply delim_none; [|apply H2, Hl].
    intros Hi. apply H1. rewrite <- (join_split_on 10 t). revert Hl Hi. generalize (split_on 10 t). intros ls Hl Hi. 
    induction ls as [|x ls IH]; [destruct Hl|]. destruct ls as [|y ls]; [destruct Hl as [->|[]]; exact Hi|].
    change (In 13%N (x ++ [10%N] ++ join [10%N] (y :: ls))). rewrite !in_app_iff. destruct Hl as [->|Hl]; [left; exact Hi|right; right; apply IH, Hl].
  - intros Hn. apply map_eq_nil in Hn. exact (split_on_nonnil _ _ Hn).
Qed.
Definition sep_of (b : text) : text := [10%N] ++ L "--" ++ b ++ [10%N].
Lemma parts_back b z ts : bd_ok b -> ts <> [] -> Forall (part_text b) ts ->
  part_lines b true (keep_lines (join (sep_of b) ts ++ [10%N] ++ L "--" ++ b ++ L "--" ++ [10%N] ++ z)) = map (fun t => keep_lines (t ++ [10%N])) ts.
Proof.
  intros Hb. assert (Hcr : ~ In 13%N (L "--" ++ b)) by (rewrite <- (app_nil_r b); apply bd_no_cr; [exact Hb|vm_compute; intuition discriminate|exact (fun F => F)]).
  assert (Hcr2 : ~ In 13%N (L "--" ++ b ++ L "--")) by (apply bd_no_cr; [exact Hb| |]; vm_compute; intuition discriminate).
  assert (Hpl : forall x, ~ In 13%N x -> ~ In 10%N x -> Forall plain_char x) by (intros x H1 H2; apply Forall_forall; intros c Hc; split; intros ->; auto).
  assert (Hlf : ~ In 10%N b) by (intros Hi; destruct Hb as [_ Hb]; rewrite Forall_forall in Hb; destruct (Hb _ Hi) as [_ [Hn _]]; exact (Hn eq_refl)).
  assert (Hlf1 : ~ In 10%N (L "--" ++ b)) by (rewrite in_app_iff; intros [Hi|Hi]; [revert Hi; vm_compute; intuition discriminate|exact (Hlf Hi)]).
  assert (Hlf2 : ~ In 10%N (L "--" ++ b ++ L "--")) by (rewrite !in_app_iff; intros [Hi|[Hi|Hi]]; [revert Hi; vm_compute; intuition discriminate|exact (Hlf Hi)|revert Hi; vm_compute; intuition discriminate]).
  intros Hne H. induction H as [|t ts Ht Hts IH]; [contradiction|]. destruct (part_text_lines b t Ht) as [H1 H2]. cbn [map].
  assert (Hfresh : forall r, part_lines b true (keep_lines (t ++ [10%N]) ++ r) = part_lines b false (keep_lines (t ++ [10%N]) ++ r)).
  { intros r. destruct (keep_lines (t ++ [10%N])) as [|l ls]; [contradiction|]. inversion H1; subst. apply part_fresh. assumption. }
  destruct ts as [|t' ts].
  - cbn [join map]. replace (t ++ [10%N] ++ L "--" ++ b ++ L "--" ++ [10%N] ++ z) with ((t ++ [10%N]) ++ (L "--" ++ b ++ L "--") ++ 10%N :: z) by (rewrite <- !app_assoc; reflexivity).
    rewrite keep_lines_app by apply Ht. rewrite (keep_line (L "--" ++ b ++ L "--")) by (apply Hpl; assumption). rewrite Hfresh. apply part_last; [exact H1|exact (delim_end b Hb)].
  - replace (join (sep_of b) (t :: t' :: ts) ++ [10%N] ++ L "--" ++ b ++ L "--" ++ [10%N] ++ z)
      with ((t ++ [10%N]) ++ (L "--" ++ b) ++ 10%N :: (join (sep_of b) (t' :: ts) ++ [10%N] ++ L "--" ++ b ++ L "--" ++ [10%N] ++ z)).
    + rewrite keep_lines_app by apply Ht. rewrite (keep_line (L "--" ++ b)) by (apply Hpl; assumption). rewrite Hfresh.
      rewrite (part_more b _ (start_line b) _ H1 (delim_start b Hb)). rewrite IH by discriminate. reflexivity.
    + change (join (sep_of b) (t :: t' :: ts)) with (t ++ sep_of b ++ join (sep_of b) (t' :: ts)). unfold sep_of at 2. rewrite <- !app_assoc. cbn [app]. reflexivity.
Qed.

(** ** There and back *)
Lemma msg_induct (P : msg -> Prop) : (forall h b, match b with PParts ps => Forall P ps | _ => True end -> P (Msg h b)) -> forall m, P m.
Proof.
  intros HP. fix IH 1. intros [h b]. apply HP. destruct b as [| | |ps]; [exact I|exact I|exact I|]. induction ps as [|p ps IHps]; constructor; [apply IH|exact IHps].
Qed.
Definition okc (q : bool) (c : N) : Prop := (if q then sendable c else True) /\ c <> 13%N.
Definition with_end (m : msg) (z : text) : msg := match m with Msg h (PStr s) => Msg h (PStr (s ++ z)) | _ => m end.
Definition heads (w : bool) (h : list (text * text)) : text := concat (map (write_field w) h) ++ [10%N].
Lemma heads_same q w h : Forall (plain_field q) h -> (q = false -> w = true) -> heads w h = heads (negb q) h.
Proof.
  intros H Hq. unfold heads. f_equal. f_equal. apply map_ext_in. rewrite Forall_forall in H. intros f Hf.
  rewrite !(written_plain q) by first [apply H, Hf|exact Hq|intros ->; reflexivity]. reflexivity.
Qed.
Lemma ascii_okc q c : (c < 128)%N -> c <> 13%N -> okc q c.
Proof. intros H1 H2. split; [destruct q; [left; exact H1|exact I]|exact H2]. Qed.
Lemma visible_okc q l : Forall (fun c => 32 <= c <= 126)%N l -> Forall (okc q) l.
Proof. intros H. eapply Forall_impl; [|exact H]. intros c Hc. cbn beta in Hc. apply ascii_okc; lia. Qed.
Lemma join_forall (P : N -> Prop) sep ls : Forall P sep -> Forall (Forall P) ls -> Forall P (join sep ls).
Proof.
  intros Hs. induction 1 as [|l ls Hl Hls IH]; [constructor|]. destruct ls as [|l' ls]; [exact Hl|].
  change (Forall P (l ++ sep ++ join sep (l' :: ls))). apply Forall_app. split; [exact Hl|]. apply Forall_app. split; [exact Hs|exact IH].
Qed.
Lemma okc_ascii q (t : text) : forallb (fun c => N.ltb c 128 && negb (N.eqb c 13)) t = true -> Forall (okc q) t.
Proof.
  intros H. rewrite forallb_forall in H. apply Forall_forall. intros c Hc. specialize (H c Hc). apply andb_true_iff in H as [H1 H2]. apply N.ltb_lt in H1.
  apply negb_true_iff in H2. apply N.eqb_neq in H2. apply ascii_okc; assumption.
Qed.
Lemma heads_okc q w h : Forall (plain_field q) h -> (q = false -> w = true) -> Forall (okc q) (heads w h).
Proof.
  intros H Hq. unfold heads. apply Forall_app. split; [|apply okc_ascii; reflexivity]. induction H as [|[n v] h Hf _ IH]; [constructor|]. cbn [map concat]. apply Forall_app. split; [|exact IH].
  rewrite (written_plain q) by assumption. cbn [fst snd]. destruct Hf as [_ [Hn [l [ls [Hv [[H1 _] [_ [_ H4]]]]]]]]. cbn [fst snd] in *. rewrite Hv.
  apply Forall_app. split; [eapply Forall_impl; [|exact Hn]; intros c Hc; cbn beta in Hc; apply ascii_okc; lia|]. apply Forall_app. split; [apply okc_ascii; reflexivity|].
  apply Forall_app. split; [|apply okc_ascii; reflexivity]. apply join_forall; [apply okc_ascii; reflexivity|]. constructor; [apply visible_okc, H1|].
  eapply Forall_impl; [|exact H4]. intros x [[Hx _] _]. apply visible_okc, Hx.
Qed.
Lemma mail_of_heads q fuel w h r : Forall (plain_field q) h -> (q = false -> w = true) -> mail_of fuel (keep_lines (heads w h ++ r)) =
  match kind_of (Msg h PNone) with
  | KText | KMulti _ None => Msg h (PStr (concat (keep_lines r)))
  | KMulti _ (Some b) =>
    match first_part b (keep_lines r), fuel with
    | None, _ => Msg h (PStr (concat (before_parts b (keep_lines r))))
    | Some ls', S fuel' => Msg h (PParts (map (fun p => cleansed (mail_of fuel' p)) (part_lines b true ls')))
    | Some _, O => other_msg (concat (keep_lines (heads w h ++ r)))
    end
  | KOther => other_msg (concat (keep_lines (heads w h ++ r)))
  end.
Proof.
  intros H Hq. pose proof (head_back q w h r H Hq) as Hb. unfold heads in *. set (ls := keep_lines _) in *. clearbody ls.
  destruct fuel; cbn [mail_of]; destruct (head_lines ls) as [hl0 rest0]; destruct (give_back hl0 rest0) as [hl rest]; destruct Hb as [-> ->]; reflexivity.
Qed.
Lemma all_parts q b ps : (fix all (ps : list msg) : Prop := match ps with [] => True | p :: ps' => (ordinary q p /\ apart q b p) /\ all ps' end) ps <->
  Forall (fun p => ordinary q p /\ apart q b p) ps.
Proof. induction ps as [|p ps IH]; [split; [constructor|auto]|]. rewrite IH. split; [intros [H1 H2]; constructor; assumption|intros H; inversion H; auto]. Qed.
Lemma rall_ok {A B} (f : A -> result B) l ys : Forall2 (fun x y => f x = Ok y) l ys -> rall f l = Ok ys.
Proof. induction 1 as [|x y l ys H1 _ IH]; [reflexivity|]. change (rall f (x :: l)) with (rbind (f x) (fun y => rbind (rall f l) (fun ys => Ok (y :: ys)))). rewrite H1. cbn [rbind]. rewrite IH. reflexivity. Qed.
Lemma part_length sep t ts : In t ts -> (length t <= length (join sep ts))%nat.
Proof.
  induction ts as [|x ts IH]; intros Hi; [destruct Hi|]. destruct ts as [|y ts]; [destruct Hi as [->|[]]; apply le_n|].
  change (length t <= length (x ++ sep ++ join sep (y :: ts)))%nat. rewrite !app_length. destruct Hi as [->|Hi]; [lia|]. specialize (IH Hi). lia.
Qed.
Lemma kind_of_part q p : ordinary q p -> cleansed (with_end p [10%N]) = p.
Proof.
  destruct p as [h [|s| |ps]]; cbn [ordinary]; intros [_ H]; try contradiction.
  - destruct H as [H1 [_ [H2 _]]]. cbn [with_end]. unfold cleansed. cbn [m_body m_headers]. rewrite kind_text by exact H1. rewrite chomp_lf by exact H2. reflexivity.
  - destruct H as [_ [b [H _]]]. cbn [with_end]. unfold cleansed. cbn [m_body m_headers]. destruct (kind_parts h b (PParts ps) H) as [w ->]. reflexivity.
Qed.
Definition comes_back (q : bool) (m : msg) : Prop := exists t, (forall w, (q = false -> w = true) -> mail_text q w m = Ok t) /\ Forall (okc q) t /\
  forall fuel z, (z = [] \/ z = [10%N]) -> (length t <= fuel)%nat -> mail_of fuel (keep_lines (t ++ z)) = with_end m z.
Lemma okc_no_cr q t : Forall (okc q) t -> ~ In 13%N t.
Proof. intros H Hi. rewrite Forall_forall in H. destruct (H _ Hi) as [_ Hn]. exact (Hn eq_refl). Qed.
Lemma letter_okc q t : letter_text q t -> Forall (okc q) t.
Proof.
  intros [H1 [H2 _]]. apply Forall_forall. intros c Hc. split; [|intros ->; exact (H2 Hc)]. destruct q; [|exact I]. rewrite Forall_forall in H1. apply H1, Hc.
Qed.
Lemma written_letter q hs t o : letter_text q t -> written_text q hs t o = Ok (hs ++ t).
Proof.
  intros [H1 [H2 H3]]. unfold written_text. destruct q.
  - rewrite mangle_id by exact (H3 eq_refl). rewrite norm_nl_id by exact H2. reflexivity.
  - destruct (has_surrogates t) eqn:Es; [|rewrite norm_nl_id by exact H2; reflexivity]. unfold has_surrogates in Es. apply existsb_exists in Es as [c [Hi Hc]].
    apply andb_true_iff in Hc as [C1 C2]. apply N.leb_le in C1, C2. rewrite Forall_forall in H1. specialize (H1 c Hi). cbn iota in H1. unfold proper in H1. lia.
Qed.
(** the texts of the parts of a mail *)
Definition part_back (q : bool) (bd : text) (p : msg) (t : text) : Prop :=
  (forall w, (q = false -> w = true) -> mail_text q w p = Ok t) /\ Forall (okc q) t /\ part_text bd t /\
  forall fuel, (length t <= fuel)%nat -> cleansed (mail_of fuel (keep_lines (t ++ [10%N]))) = p.
Lemma part_comes_back q bd p : comes_back q p -> ordinary q p -> apart q bd p -> exists t, part_back q bd p t.
Proof.
  intros [t [T1 [T2 T3]]] Ho Ha. exists t. split; [exact T1|]. split; [exact T2|]. split.
  - split; [exact (okc_no_cr q t T2)|]. intros l Hl. apply (Ha t l); [apply T1; intros ->; reflexivity|exact Hl].
  - intros fuel Hf. rewrite T3 by auto. exact (kind_of_part q p Ho).
Qed.
Lemma parts_read q h bd ps ts fuel z : Forall (plain_field q) h -> parts_type h bd -> ps <> [] -> Forall2 (part_back q bd) ps ts ->
  let t := heads (negb q) h ++ in_parts bd ts in
  Forall (okc q) t /\ ((length t <= fuel)%nat -> mail_of fuel (keep_lines (t ++ z)) = Msg h (PParts ps)).
Proof.
  intros Hh Hp Hne Hts t. assert (Hb : bd_ok bd) by (destruct Hp as [_ [_ Hb]]; exact Hb).
  assert (Hnt : ts <> []) by (intros ->; inversion Hts; subst; contradiction). assert (Hq : q = false -> negb q = true) by (intros ->; reflexivity).
  split.
  - apply Forall_app. split; [apply heads_okc; assumption|]. unfold in_parts.
    assert (Hbo : Forall (okc q) bd) by (destruct Hb as [_ Hb]; eapply Forall_impl; [|exact Hb]; intros c [H1 [H2 H3]]; apply ascii_okc; assumption).
    assert (Hto : Forall (Forall (okc q)) ts) by (clear -Hts; induction Hts as [|p t ps ts [_ [H _]] _ IH]; constructor; assumption).
    repeat (apply Forall_app; split); try exact Hbo; try (apply okc_ascii; reflexivity).
    apply join_forall; [|exact Hto]. repeat (apply Forall_app; split); try exact Hbo; apply okc_ascii; reflexivity.
  - intros Hl. unfold t in *. rewrite <- app_assoc, (mail_of_heads q) by assumption. destruct (kind_parts h bd PNone Hp) as [w' ->].
    assert (Hk : keep_lines (in_parts bd ts ++ z) = start_line bd :: keep_lines (join (sep_of bd) ts ++ [10%N] ++ L "--" ++ bd ++ L "--" ++ [10%N] ++ z)).
    { unfold in_parts. replace ((L "--" ++ bd ++ [10%N] ++ join ([10%N] ++ L "--" ++ bd ++ [10%N]) ts ++ [10%N] ++ L "--" ++ bd ++ L "--" ++ [10%N]) ++ z)
        with ((L "--" ++ bd) ++ 10%N :: (join (sep_of bd) ts ++ [10%N] ++ L "--" ++ bd ++ L "--" ++ [10%N] ++ z)).
      - rewrite keep_line; [reflexivity|]. apply Forall_app. split; [repeat constructor; discriminate|]. destruct Hb as [_ Hb]. eapply Forall_impl; [|exact Hb]. intros c [_ Hc]. exact Hc.
      - unfold sep_of. rewrite <- !app_assoc. reflexivity. }
    rewrite Hk. cbn [first_part]. rewrite (delim_start bd Hb).
    destruct fuel as [|fuel]; [unfold heads in Hl; rewrite !app_length in Hl; cbn [length] in Hl; lia|].
    rewrite parts_back; [|exact Hb|exact Hnt|].
    + rewrite map_map. f_equal. f_equal.
      assert (Hlen : forall t, In t ts -> (length t <= fuel)%nat).
      { intros x Hi. apply (part_length ([10%N] ++ L "--" ++ bd ++ [10%N])) in Hi. unfold heads, in_parts in Hl. rewrite !app_length in Hl. cbn [length] in Hl. lia. }
      clear -Hts Hlen. induction Hts as [|p t ps ts [_ [_ [_ H]]] _ IH]; [reflexivity|]. cbn [map]. rewrite H by (apply Hlen; left; reflexivity).
      rewrite IH by (intros x Hx; apply Hlen; right; exact Hx). reflexivity.
    + clear -Hts. induction Hts as [|p t ps ts [_ [_ [H _]]] _ IH]; constructor; assumption.
Qed.
Lemma parts_written q bd w ps ts : (q = false -> w = true) -> Forall2 (part_back q bd) ps ts -> rall (mail_text q w) ps = Ok ts.
Proof. intros Hq Hts. apply rall_ok. induction Hts as [|p t ps ts [H _] _ IH]; constructor; [apply H, Hq|exact IH]. Qed.
Theorem ordinary_back q m : ordinary q m -> comes_back q m.
Proof.
  revert m. refine (msg_induct (fun m => ordinary q m -> comes_back q m) _). intros h b IH Ho. cbn [ordinary] in Ho. destruct Ho as [Hh Ho]. destruct b as [|s| |ps]; try contradiction.
  - destruct Ho as [Ht Hlt]. exists (heads (negb q) h ++ s). split; [|split].
    + intros w Hq. cbn [mail_text]. rewrite kind_text by exact Ht. fold (heads w h). rewrite (heads_same q) by assumption. apply written_letter, Hlt.
    + apply Forall_app. split; [apply heads_okc; [exact Hh|intros ->; reflexivity]|apply letter_okc, Hlt].
    + intros fuel z Hz Hl. rewrite <- app_assoc, (mail_of_heads q) by first [exact Hh|intros ->; reflexivity]. rewrite kind_text by exact Ht. cbn [with_end]. rewrite keep_lines_concat. reflexivity.
  - destruct Ho as [Hne [bd [Hp Hall]]]. apply all_parts in Hall.
    assert (Hts : exists ts, Forall2 (part_back q bd) ps ts).
    { clear Hne. induction ps as [|p ps IHps]; [exists []; constructor|]. inversion IH as [|? ? IHp IHq]; subst. inversion Hall as [|? ? [Ho Ha] Hall']; subst.
      destruct (IHps IHq Hall') as [ts Hts]. destruct (part_comes_back q bd p (IHp Ho) Ho Ha) as [t Ht]. exists (t :: ts). constructor; assumption. }
    destruct Hts as [ts Hts]. exists (heads (negb q) h ++ in_parts bd ts). split; [|split].
    + intros w Hq. cbn [mail_text]. destruct (kind_parts h bd (PParts ps) Hp) as [w' ->]. destruct Hp as [_ [_ [Hb _]]]. destruct bd as [|c bd]; [contradiction|].
      rewrite (parts_written q (c :: bd) _ _ ts); [|intros Hf; rewrite (Hq Hf); reflexivity|exact Hts]. cbn [rbind]. fold (heads w h). rewrite (heads_same q) by assumption. reflexivity.
    + apply (parts_read q h bd ps ts 0 [] Hh Hp Hne Hts).
    + intros fuel z _ Hl. cbn [with_end]. apply (parts_read q h bd ps ts fuel z Hh Hp Hne Hts), Hl.
Qed.
Lemma with_no_end m : with_end m [] = m.
Proof. destruct m as [h [|s| |]]; try reflexivity. cbn [with_end]. rewrite app_nil_r. reflexivity. Qed.
Theorem ordinary_bytes m : ordinary true m -> exists b, mail_bytes m = Ok b /\ mail_read b = m.
Proof.
  intros H. destruct (ordinary_back true m H) as [t [H1 [H2 H3]]]. destruct (to_bytes_ok t) as [b [B1 [B2 B3]]].
  { eapply Forall_impl; [|exact H2]. intros c [Hc _]. exact Hc. }
  exists b. unfold mail_bytes, mail_read. rewrite H1 by discriminate. split; [exact B1|]. rewrite B2, B3. rewrite <- (app_nil_r t) at 2. rewrite H3 by auto. apply with_no_end.
Qed.
Theorem ordinary_string m : ordinary false m -> exists t, mail_string m = Ok t /\ string_read t = m /\
  string_read (t ++ [10%N]) = with_end m [10%N].
Proof.
  intros H. destruct (ordinary_back false m H) as [t [H1 [H2 H3]]]. exists t. unfold mail_string, string_read. rewrite H1 by reflexivity. split; [reflexivity|]. split.
  - rewrite <- (app_nil_r t) at 2. rewrite H3 by auto. apply with_no_end.
  - apply H3; [auto|]. rewrite app_length. cbn [length]. lia.
Qed.

(** exactly *)
Lemma text_sendable h t b : text_type h -> mail_bytes (Msg h (PStr t)) = Ok b -> Forall sendable t.
Proof.
  intros Ht H. unfold mail_bytes in H. cbn [mail_text] in H. rewrite kind_text in H by exact Ht. unfold written_text in H. cbn [rbind] in H.
  pose proof (to_bytes_sendable _ _ H) as Hs. apply Forall_app in Hs as [_ Hs2].
  apply Forall_forall. intros c Hc. destruct (N.eq_dec c 13) as [->|Hn]; [left; lia|]. rewrite Forall_forall in Hs2. apply Hs2.
  clear -Hc Hn. assert (Hm : forall bol, In c (mangle bol t)).
  { induction t as [|x t IH]; [destruct Hc|]. intros bol. cbn [mangle]. apply in_or_app. right. destruct Hc as [->|Hc]; [left; reflexivity|right; apply IH, Hc]. }
  specialize (Hm true). revert Hm. generalize (mangle true t). intros u. induction u as [|x u IH]; intros Hu; [destruct Hu|]. cbn [norm_nl].
  destruct (N.eqb_spec x 13) as [->|Hx].
  - destruct Hu as [Hu|Hu]; [congruence|]. destruct (at_lf u); [apply IH, Hu|right; apply IH, Hu].
  - destruct Hu as [Hu|Hu]; [left; exact Hu|right; apply IH, Hu].
Qed.
Theorem text_back h t b : Forall (plain_field true) h -> text_type h -> mail_bytes (Msg h (PStr t)) = Ok b ->
  Forall sendable t /\ exists t', mail_read b = Msg h (PStr t') /\ (t' = t <-> letter_text true t).
Proof.
  intros Hh Ht H. pose proof (text_sendable h t b Ht H) as Hst. unfold mail_bytes in H. cbn [mail_text] in H. rewrite kind_text in H by exact Ht. unfold written_text in H. cbn [rbind] in H. fold (heads false h) in H.
  pose proof (to_bytes_sendable _ _ H) as Hs. apply Forall_app in Hs as [Hs1 Hs2].
  split; [exact Hst|]. destruct (to_bytes_ok (heads false h ++ norm_nl (mangle true t))) as [b' [B1 [B2 B3]]]; [apply Forall_app; split; assumption|].
  rewrite H in B1. injection B1 as <-. exists (norm_nl (mangle true t)). split.
  - unfold mail_read. rewrite B2, (mail_of_heads true) by first [exact Hh|discriminate]. rewrite kind_text by exact Ht. rewrite keep_lines_concat. reflexivity.
  - split.
    + intros He. assert (Hcr : ~ In 13%N t) by (rewrite <- He; apply norm_nl_no_cr). split; [exact Hst|]. split; [exact Hcr|].
      intros _ l Hl Hf. apply (mangle_changes t l Hl Hf). rewrite norm_nl_id in He; [exact He|]. intros Hi. apply mangle_in in Hi as [Hi|Hi]; [discriminate|exact (Hcr Hi)].
    + intros [_ [H2 H3]]. rewrite mangle_id by exact (H3 eq_refl). apply norm_nl_id, H2.
Qed.
End EmailProofs.
