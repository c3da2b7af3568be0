(** The other methods of BinGPG (C78). *)
From Verif Require Import Base PyStr Env Prog Chain Gpg Mime States Recommendation Account Cmdline Bot Fs Api Steps StepFacts Exec ApiScope
  Spec Obs PeerSpec OutSpec AcctSpec PeerFacts Quiet OutProofs AcctFacts Rings ImportProofs CliSpec CliProofs CliProofs2 GpgSpec GpgText Utf8 VersionProofs ProgProofs TalkSpec FailSpec KeySpec KeyText KeyProofs
  GpgMore GpgMoreSpec.

(** ** Lines *)
Lemma linebreak_In c : is_linebreak c = true <-> In c breaks.
Proof.
  unfold is_linebreak, breaks. cbn [In]. rewrite !orb_true_iff, !andb_true_iff, !N.leb_le, !N.eqb_eq. split; intros H.
  - assert (c = 10 \/ c = 11 \/ c = 12 \/ c = 13 \/ c = 28 \/ c = 29 \/ c = 30 \/ c = 133 \/ c = 8232 \/ c = 8233)%N by lia. intuition.
  - intuition; subst; lia.
Qed.
Lemma one_line_cons c l : one_line (c :: l) <-> is_linebreak c = false /\ one_line l.
Proof.
  split.
  - intros H. split; [|intros x Hx; apply H; right; exact Hx]. destruct (is_linebreak c) eqn:Ec; [|reflexivity].
    apply linebreak_In in Ec. destruct (H c (or_introl eq_refl) Ec).
  - intros [H1 H2] x [<-|Hx]; [|exact (H2 x Hx)]. intros H. apply linebreak_In in H. congruence.
Qed.
Lemma aux_plain l : one_line l -> forall acc s, splitlines_aux acc (l ++ s) = splitlines_aux (rev l ++ acc) s.
Proof.
  induction l as [|c l IH]; intros H acc s; [reflexivity|]. apply one_line_cons in H as [H1 H2].
  cbn [app splitlines_aux]. rewrite H1, IH by exact H2. cbn [rev]. rewrite <- app_assoc. reflexivity.
Qed.
Lemma broken_splitlines t ls : broken t ls -> splitlines t = ls.
Proof.
  unfold splitlines. induction 1 as [|l Hn Hl|l br rest ls Hl Hbr Hcr _ IH]; [reflexivity| |].
  - rewrite <- (app_nil_r l) at 1. rewrite aux_plain by exact Hl. rewrite app_nil_r. cbn [splitlines_aux].
    destruct (rev l) as [|x r] eqn:Er; [apply (f_equal (@rev N)) in Er; rewrite rev_involutive in Er; contradiction|].
    rewrite <- Er, rev_involutive. reflexivity.
  - rewrite aux_plain by exact Hl. rewrite app_nil_r. destruct Hbr as [->|[c [-> Hc]]].
    + cbn [app splitlines_aux]. change (is_linebreak 13) with true. cbn [N.eqb andb]. rewrite rev_involutive, IH. reflexivity.
    + cbn [app splitlines_aux]. rewrite (proj2 (linebreak_In c) Hc). destruct rest as [|y rest].
      * rewrite rev_involutive. cbn [splitlines_aux] in IH. rewrite <- IH. reflexivity.
      * destruct (N.eqb_spec c 13) as [->|]; cbn [andb]; [|rewrite rev_involutive, IH; reflexivity].
        destruct (N.eqb_spec y 10) as [->|]; [destruct (Hcr eq_refl eq_refl)|rewrite rev_involutive, IH; reflexivity].
Qed.
Lemma aux_broken n : forall s acc, (length s <= n)%nat -> one_line acc -> broken (rev acc ++ s) (splitlines_aux acc s).
Proof.
  induction n as [|n IH]; intros s acc Hn Hacc.
  1: destruct s; [|cbn in Hn; lia].
  2: destruct s as [|x s].
  1,2: cbn [splitlines_aux]; rewrite app_nil_r; destruct acc as [|a acc]; [constructor|];
    constructor; [intros H; apply (f_equal (@length N)) in H; rewrite rev_length in H; discriminate|];
    intros c Hc; apply Hacc, in_rev, Hc.
  assert (Hrev : one_line (rev acc)) by (intros c Hc; apply Hacc, in_rev, Hc).
  assert (H0 : one_line []) by (intros c []).
  cbn [splitlines_aux length] in *. destruct (is_linebreak x) eqn:Ex.
  - apply linebreak_In in Ex. destruct s as [|y s].
    + change [x] with ([x] ++ []). constructor; auto; [right; eauto|intros _; discriminate|constructor].
    + cbn [length] in Hn. destruct (N.eqb_spec x 13) as [->|Hx]; cbn [andb].
      * destruct (N.eqb_spec y 10) as [->|Hy].
        -- change (13 :: 10 :: s)%N with ([13; 10]%N ++ s). constructor; auto; [left; reflexivity|discriminate|]. apply (IH s []); [lia|exact H0].
        -- change (13 :: y :: s)%N with ([13]%N ++ (y :: s)). constructor; auto; [right; eauto|cbn; congruence|]. apply (IH (y :: s) []); [cbn [length]; lia|exact H0].
      * change (x :: y :: s)%N with ([x] ++ (y :: s)). constructor; auto; [right; eauto|congruence|]. apply (IH (y :: s) []); [cbn [length]; lia|exact H0].
  - replace (rev acc ++ x :: s) with (rev (x :: acc) ++ s) by (cbn [rev]; rewrite <- app_assoc; reflexivity).
    apply IH; [lia|]. apply one_line_cons. auto.
Qed.
Theorem c78_lines : forall t ls, broken t ls <-> splitlines t = ls.
Proof.
  intros t ls. split; [apply broken_splitlines|]. intros <-. apply (aux_broken (length t) t []); [lia|]. intros c [].
Qed.
(** ** White space *)
Theorem c78_strip : forall s t, trimmed s t <-> strip s = t.
Proof.
  intros s t. split.
  - intros [w1 [w2 [-> [Hw Ht]]]]. apply Forall_app in Hw as [H1 H2].
    assert (Hf : forall w, Forall (fun c => is_space c = true) w -> forallb is_space w = true).
    { intros w H. apply forallb_forall. rewrite Forall_forall in H. exact H. }
    rewrite strip_space_l, strip_space_r by auto. apply strip_id. unfold stripped.
    apply andb_true_iff. split.
    + destruct t as [|c t]; [reflexivity|]. rewrite (Ht c) by (left; reflexivity). reflexivity.
    + destruct (rev t) as [|c r]; [reflexivity|]. rewrite (Ht c) by (right; reflexivity). reflexivity.
  - intros <-. unfold strip, rstrip. destruct (lstrip_spec s) as [w1 [E1 F1]]. destruct (lstrip_spec (rev (lstrip s))) as [w2 [E2 F2]].
    exists w1, (rev w2). split; [|split].
    + rewrite E1 at 1. f_equal. apply (f_equal (@rev N)) in E2. rewrite rev_involutive, rev_app_distr in E2. exact E2.
    + apply Forall_forall. intros c Hc. apply in_app_or in Hc as [Hc|Hc]; [|apply in_rev in Hc]; rewrite forallb_forall in F1, F2; auto.
    + intros c [Hc|Hc].
      * pose proof (lstrip_head s) as Hh. apply (f_equal (@rev N)) in E2. rewrite rev_involutive, rev_app_distr in E2. rewrite E2 in Hh.
        destruct (rev (lstrip (rev (lstrip s)))) as [|c' r]; [discriminate|]. injection Hc as ->. exact Hh.
      * rewrite rev_involutive in Hc. pose proof (lstrip_head (rev (lstrip s))) as Hh.
        destruct (lstrip (rev (lstrip s))) as [|c' r]; [discriminate|]. injection Hc as ->. exact Hh.
Qed.
Lemma trimmed_map raw ls : Forall2 trimmed raw ls <-> map strip raw = ls.
Proof.
  split.
  - induction 1 as [|r l raw ls H _ IH]; [reflexivity|]. apply c78_strip in H. cbn [map]. congruence.
  - intros <-. induction raw; cbn [map]; constructor; auto. apply c78_strip. reflexivity.
Qed.

(** ** Packets *)
Lemma cut_some c s a b : cut_at c s = Some (a, b) <-> s = a ++ c :: b /\ ~ In c a.
Proof.
  revert a b. induction s as [|x s IH]; intros a b; cbn [cut_at].
  - split; [discriminate|]. intros [H _]. destruct a; discriminate.
  - destruct (N.eqb_spec x c) as [->|Hx].
    + split; [intros [= <- <-]; auto|]. intros [H Hn]. destruct a as [|y a]; [injection H as <-; reflexivity|].
      injection H as <- _. destruct Hn. left; reflexivity.
    + destruct (cut_at c s) as [[a' b']|] eqn:Ec.
      * pose proof (proj1 (IH a' b') eq_refl) as [Hs Hn]. split.
        -- intros [= <- <-]. subst s. split; [reflexivity|]. intros [H|H]; contradiction.
        -- intros [H Hna]. destruct a as [|y a]; [injection H as H _; contradiction|]. injection H as <- H.
           assert (Hc : Some (a', b') = Some (a, b)) by (apply IH; split; [exact H|intros Hi; apply Hna; right; exact Hi]).
           injection Hc as -> ->. reflexivity.
      * split; [discriminate|]. intros [H Hna]. destruct a as [|y a]; [injection H as H _; contradiction|]. injection H as <- H.
        assert (Hc : None = Some (a, b)) by (apply IH; split; [exact H|intros Hi; apply Hna; right; exact Hi]). discriminate.
Qed.
Lemma cut_none c s : cut_at c s = None <-> ~ In c s.
Proof.
  induction s as [|x s IH]; cbn [cut_at In]; [tauto|]. destruct (N.eqb_spec x c) as [->|Hx]; [split; [discriminate|tauto]|].
  destruct (cut_at c s) as [[a b]|].
  - split; [discriminate|]. intros H. assert (Some (a, b) = None) by tauto. discriminate.
  - split; [intros _ [H|H]; [contradiction|tauto]|reflexivity].
Qed.
Inductive lkind := KOver | KHead (t v : text) | KDetail.
Definition lkind_of (line : text) : lkind :=
  if startswith (L "#") line then KOver
  else if startswith (L ":") line then match cut_at 58 (tl line) with Some (t, r) => KHead t (strip r) | None => KOver end
  else KDetail.
Lemma starts1 c line : startswith [c] line = true <-> hd_error line = Some c.
Proof. destruct line as [|x l]; cbn; [split; discriminate|]. rewrite andb_true_r, N.eqb_eq. split; congruence. Qed.
Lemma over_iff line : lkind_of line = KOver <-> passed_over line.
Proof.
  unfold lkind_of, passed_over. change (L "#") with [35%N]. change (L ":") with [58%N]. split.
  - destruct (startswith [35%N] line) eqn:E1.
    + apply starts1 in E1. destruct line as [|x l]; [discriminate|]. injection E1 as ->. left. eexists; reflexivity.
    + destruct (startswith [58%N] line) eqn:E2; [|discriminate]. apply starts1 in E2. destruct line as [|x l]; [discriminate|]. injection E2 as ->.
      cbn [tl]. destruct (cut_at 58 l) as [[a b]|] eqn:Ec; [discriminate|]. apply cut_none in Ec. right. exists l. auto.
  - intros [[r ->]|[r [-> Hr]]]; [reflexivity|]. cbn [app startswith tl]. change ((35 =? 58)%N) with false. cbn [andb N.eqb Pos.eqb].
    apply cut_none in Hr. rewrite Hr. reflexivity.
Qed.
Lemma head_iff line t v : lkind_of line = KHead t v <-> heading line t v.
Proof.
  unfold lkind_of, heading. change (L "#") with [35%N]. change (L ":") with [58%N]. split.
  - destruct (startswith [35%N] line) eqn:E1; [discriminate|]. destruct (startswith [58%N] line) eqn:E2; [|discriminate].
    apply starts1 in E2. destruct line as [|x l]; [discriminate|]. injection E2 as ->. cbn [tl].
    destruct (cut_at 58 l) as [[a b]|] eqn:Ec; [|discriminate]. intros [= <- <-]. apply cut_some in Ec as [-> Hn].
    exists b. split; [reflexivity|]. split; [exact Hn|]. apply c78_strip. reflexivity.
  - intros [v' [-> [Hn Hv]]]. cbn [app startswith tl]. cbn [andb N.eqb Pos.eqb].
    assert (Hc : cut_at 58 (t ++ 58%N :: v') = Some (t, v')) by (apply cut_some; auto). rewrite Hc. apply c78_strip in Hv. rewrite Hv. reflexivity.
Qed.
Lemma detail_iff line : lkind_of line = KDetail <-> detail line.
Proof.
  unfold lkind_of, detail. change (L "#") with [35%N]. change (L ":") with [58%N]. rewrite <- !starts1.
  destruct (startswith [35%N] line); [split; [discriminate|intros [H _]; destruct (H eq_refl)]|].
  destruct (startswith [58%N] line); [|split; [split; discriminate|reflexivity]].
  split; [destruct (cut_at 58 (tl line)) as [[? ?]|]; discriminate|intros [_ H]; destruct (H eq_refl)].
Qed.
Lemma loop_step packets lines last rawline raw :
  packet_loop packets lines last (rawline :: raw) =
  match lkind_of (strip rawline) with
  | KOver => packet_loop packets lines last raw
  | KHead t' v' => match last with
    | Some (t, v) => packet_loop ((t, v, rev lines) :: packets) [] (Some (t', v')) raw
    | None => packet_loop packets lines (Some (t', v')) raw end
  | KDetail => match last with Some _ => packet_loop packets (strip rawline :: lines) last raw | None => Err AssertionError end
  end.
Proof.
  cbn [packet_loop]. unfold lkind_of. cbv zeta. destruct (startswith (L "#") (strip rawline)); [reflexivity|].
  destruct (startswith (L ":") (strip rawline)); [|reflexivity]. destruct (cut_at 58 (tl (strip rawline))) as [[a b]|]; reflexivity.
Qed.
Lemma loop_some raw : forall packets lines t v, exists body ds rest ps,
  map strip raw = body ++ rest /\ details_of body ds /\ lists_packets rest ps /\
  packet_loop packets lines (Some (t, v)) raw = Ok (rev packets ++ (t, v, rev lines ++ ds) :: ps).
Proof.
  induction raw as [|r raw IH]; intros packets lines t v.
  - exists [], [], [], []. split; [reflexivity|]. split; [constructor|]. split; [constructor|]. cbn [packet_loop rev]. rewrite app_nil_r. reflexivity.
  - rewrite loop_step. cbn [map]. destruct (lkind_of (strip r)) as [|t' v'|] eqn:Ek.
    + apply over_iff in Ek. destruct (IH packets lines t v) as [body [ds [rest [ps [H1 [H2 [H3 H4]]]]]]].
      exists (strip r :: body), ds, rest, ps. rewrite H1. split; [reflexivity|]. split; [constructor; assumption|]. auto.
    + apply head_iff in Ek. destruct (IH ((t, v, rev lines) :: packets) [] t' v') as [body [ds [rest [ps [H1 [H2 [H3 H4]]]]]]].
      exists [], [], (strip r :: map strip raw), ((t', v', ds) :: ps). split; [reflexivity|]. split; [constructor|].
      split; [rewrite H1; constructor; assumption|]. rewrite H4. cbn [rev app]. rewrite <- app_assoc, app_nil_r. reflexivity.
    + pose proof (proj1 (detail_iff _) Ek) as Hd. destruct (IH packets (strip r :: lines) t v) as [body [ds [rest [ps [H1 [H2 [H3 H4]]]]]]].
      exists (strip r :: body), (strip r :: ds), rest, ps. rewrite H1. split; [reflexivity|]. split; [constructor; assumption|]. split; [exact H3|].
      rewrite H4. cbn [rev]. rewrite <- !app_assoc. reflexivity.
Qed.
(** what is listed is determined by the lines *)
Lemma details_split body ds : details_of body ds -> forall rest packets lines t v raw, map strip raw = body ++ rest ->
  exists raw', map strip raw' = rest /\ packet_loop packets lines (Some (t, v)) raw = packet_loop packets (rev ds ++ lines) (Some (t, v)) raw'.
Proof.
  induction 1 as [|line ls ds Hl _ IH|line ls ds Hl _ IH]; intros rest packets lines t v raw Hr.
  - exists raw. auto.
  - destruct raw as [|r raw]; [discriminate|]. injection Hr as Hr1 Hr. rewrite loop_step, Hr1. apply over_iff in Hl. rewrite Hl. apply IH, Hr.
  - destruct raw as [|r raw]; [discriminate|]. injection Hr as Hr1 Hr. rewrite loop_step, Hr1. apply detail_iff in Hl. rewrite Hl.
    destruct (IH rest packets (line :: lines) t v raw Hr) as [raw' [H1 H2]]. exists raw'. split; [exact H1|]. rewrite H2. cbn [rev]. rewrite <- app_assoc. reflexivity.
Qed.
Lemma lists_some ls ps : lists_packets ls ps -> forall packets lines t v raw, map strip raw = ls ->
  packet_loop packets lines (Some (t, v)) raw = Ok (rev packets ++ (t, v, rev lines) :: ps).
Proof.
  induction 1 as [|line ls ps Hl _ IH|line t' v' body ds ls ps Hh Hd _ IH]; intros packets lines t v raw Hr.
  - destruct raw; [|discriminate]. reflexivity.
  - destruct raw as [|r raw]; [discriminate|]. injection Hr as Hr1 Hr. rewrite loop_step, Hr1. apply over_iff in Hl. rewrite Hl. apply IH, Hr.
  - destruct raw as [|r raw]; [discriminate|]. injection Hr as Hr1 Hr. rewrite loop_step, Hr1. apply head_iff in Hh. rewrite Hh.
    destruct (details_split _ _ Hd ls ((t, v, rev lines) :: packets) [] t' v' raw Hr) as [raw' [H1 H2]]. rewrite H2, (IH _ _ _ _ _ H1).
    rewrite app_nil_r, rev_involutive. cbn [rev]. rewrite <- app_assoc. reflexivity.
Qed.
Lemma lists_none ls ps : lists_packets ls ps -> forall raw, map strip raw = ls ->
  packet_loop [] [] None raw = match ps with [] => Err TypeError | _ => Ok ps end.
Proof.
  induction 1 as [|line ls ps Hl _ IH|line t' v' body ds ls ps Hh Hd Hls _]; intros raw Hr.
  - destruct raw; [|discriminate]. reflexivity.
  - destruct raw as [|r raw]; [discriminate|]. injection Hr as Hr1 Hr. rewrite loop_step, Hr1. apply over_iff in Hl. rewrite Hl. apply IH, Hr.
  - destruct raw as [|r raw]; [discriminate|]. injection Hr as Hr1 Hr. rewrite loop_step, Hr1. apply head_iff in Hh. rewrite Hh.
    destruct (details_split _ _ Hd ls [] [] t' v' raw Hr) as [raw' [H1 H2]]. rewrite H2, (lists_some _ _ Hls _ _ _ _ _ H1).
    rewrite app_nil_r, rev_involutive. reflexivity.
Qed.
Lemma loop_none raw : match packet_loop [] [] None raw with
  | Ok ps => ps <> [] /\ lists_packets (map strip raw) ps
  | Err TypeError => lists_packets (map strip raw) []
  | Err AssertionError => exists before line after, map strip raw = before ++ line :: after /\ Forall passed_over before /\ detail line
  | Err _ => False
  end.
Proof.
  induction raw as [|r raw IH]; [constructor|]. rewrite loop_step. cbn [map]. destruct (lkind_of (strip r)) as [|t' v'|] eqn:Ek.
  - apply over_iff in Ek. destruct (packet_loop [] [] None raw) as [ps|[]]; try exact IH.
    + destruct IH as [H1 H2]. split; [exact H1|]. constructor; assumption.
    + destruct IH as [b [l [a [H1 [H2 H3]]]]]. exists (strip r :: b), l, a. rewrite H1. split; [reflexivity|]. split; [constructor|]; assumption.
    + constructor; assumption.
  - apply head_iff in Ek. destruct (loop_some raw [] [] t' v') as [body [ds [rest [ps [H1 [H2 [H3 H4]]]]]]]. rewrite H4. cbn [rev app].
    split; [discriminate|]. rewrite H1. constructor; assumption.
  - apply detail_iff in Ek. exists [], (strip r), (map strip raw). split; [reflexivity|]. split; [constructor|exact Ek].
Qed.
Theorem c78_packets : forall out, match packets_of out with
  | Ok ps => ps <> [] /\ packets_written out ps
  | Err TypeError => packets_written out []
  | Err AssertionError => exists raw ls before line after, broken out raw /\ Forall2 trimmed raw ls /\ ls = before ++ line :: after /\
      Forall passed_over before /\ detail line
  | Err _ => False
  end.
Proof.
  intros out. unfold packets_of, packets_written. pose proof (loop_none (splitlines out)) as H.
  assert (Hb : broken out (splitlines out)) by (apply c78_lines; reflexivity).
  assert (Ht : Forall2 trimmed (splitlines out) (map strip (splitlines out))) by (apply trimmed_map; reflexivity).
  destruct (packet_loop [] [] None (splitlines out)) as [ps|[]]; try exact H.
  - destruct H as [H1 H2]. split; [exact H1|]. eauto.
  - destruct H as [b [l [a [H1 [H2 H3]]]]]. exists (splitlines out), (map strip (splitlines out)), b, l, a. auto.
  - eauto.
Qed.
Theorem c78_packets_unique : forall out ps, packets_written out ps -> ps <> [] -> packets_of out = Ok ps.
Proof.
  intros out ps [raw [ls [H1 [H2 H3]]]] Hn. apply c78_lines in H1. subst raw. apply trimmed_map in H2.
  unfold packets_of. rewrite (lists_none _ _ H3 _ H2). destruct ps; [contradiction|reflexivity].
Qed.

(** ** Failures *)
Lemma join_lines l x : join [10%N] (x :: l) = x ++ concat (map (fun y => 10%N :: y) l).
Proof.
  revert x. induction l as [|y l IH]; intros x; [cbn; rewrite app_nil_r; reflexivity|].
  change (join [10%N] (x :: y :: l)) with (x ++ [10%N] ++ join [10%N] (y :: l)). rewrite IH. reflexivity.
Qed.
Lemma dec_Z_written z : written_Z z (dec_Z z).
Proof.
  unfold written_Z, dec_Z. destruct z as [|p|p]; cbn [Z.ltb Z.compare Z.to_N Z.opp].
  - apply (dec_N_written 0).
  - apply dec_N_written.
  - eexists. split; [reflexivity|]. apply dec_N_written.
Qed.
Theorem c78_failure : forall ret cmd out err extra outs errs, broken out outs -> broken err errs ->
  let indented := fun ls => concat (map (fun l => [10%N] ++ L "  " ++ l) ls) in
  exists d, written_Z ret d /\
  failure_text ret cmd out err extra =
    L "GPG Command '" ++ cmd ++ L "' retcode=" ++ d ++ [10%N] ++ L "stdout:" ++ indented outs ++ [10%N] ++ L "stderr:" ++ indented errs ++
    match extra with Some (c :: x) => [10%N] ++ c :: x | _ => [] end.
Proof.
  intros ret cmd out err extra outs errs Ho He indented. exists (dec_Z ret). split; [apply dec_Z_written|].
  apply c78_lines in Ho, He. unfold failure_text. rewrite Ho, He. cbv zeta. cbn [app]. rewrite join_lines. rewrite <- !app_assoc. do 4 f_equal.
  cbn [map concat app]. rewrite map_app, concat_app. cbn [map concat app]. rewrite map_app, concat_app. rewrite !map_map.
  assert (Hx : concat (map (fun y => 10%N :: y) match extra with Some x => if nonempty x then [x] else [] | None => [] end) =
               match extra with Some (c :: x) => 10%N :: c :: x | _ => [] end).
  { destruct extra as [[|c x]|]; cbn; try rewrite app_nil_r; reflexivity. }
  rewrite Hx. unfold indented. rewrite <- ?app_assoc. cbn [app]. reflexivity.
Qed.

(** ** Versions *)
Section GpgMoreProofs.
Context {E : Env}.
Lemma ge_nil l : version_ge l [] = Ok true.
Proof. destruct l as [|[] l]; reflexivity. Qed.
Lemma ge_num ns k l : version_ge (map VNum ns) (VNum k :: l) =
  match ns with [] => Ok false | x :: r => if N.eqb x k then version_ge (map VNum r) l else Ok (N.leb k x) end.
Proof. destruct ns; reflexivity. Qed.
Lemma ge_2_0 ns : exists b, version_ge (map VNum ns) [VNum 2; VNum 0] = Ok b /\ (b = true <-> from_2_0 ns).
Proof.
  rewrite ge_num. unfold from_2_0. destruct ns as [|x r].
  - exists false. split; [reflexivity|]. split; [discriminate|]. intros [[y [q [H _]]]|[y [q H]]]; discriminate.
  - destruct (N.eqb_spec x 2) as [->|Hx].
    + rewrite ge_num. destruct r as [|y r].
      * exists false. split; [reflexivity|]. split; [discriminate|]. intros [[y [q [H Hl]]]|[y [q H]]]; [injection H as <- _; lia|discriminate].
      * exists true. split; [|split; [right; eauto|reflexivity]]. destruct (N.eqb_spec y 0); [apply ge_nil|].
        f_equal. apply N.leb_le. lia.
    + exists (N.leb 2 x). split; [reflexivity|]. rewrite N.leb_le. split.
      * intros H. left. exists x, r. split; [reflexivity|lia].
      * intros [[y [q [H Hl]]]|[y [q H]]]; injection H as -> _; lia.
Qed.
Lemma ge_2_1_12 ns : exists b, version_ge (map VNum ns) [VNum 2; VNum 1; VNum 12] = Ok b /\ (b = true <-> from_2_1_12 ns).
Proof.
  rewrite ge_num. unfold from_2_1_12. destruct ns as [|x r].
  - exists false. split; [reflexivity|]. split; [discriminate|]. intros [[y [q [H _]]]|[[y [q [H _]]]|[y [q [H _]]]]]; discriminate.
  - destruct (N.eqb_spec x 2) as [->|Hx].
    + rewrite ge_num. destruct r as [|y r].
      * exists false. split; [reflexivity|]. split; [discriminate|]. intros [[y [q [H Hl]]]|[[y [q [H _]]]|[y [q [H _]]]]]; [injection H as <- _; lia|discriminate|discriminate].
      * destruct (N.eqb_spec y 1) as [->|Hy].
        -- rewrite ge_num. destruct r as [|z r].
           ++ exists false. split; [reflexivity|]. split; [discriminate|].
              intros [[y [q [H Hl]]]|[[y [q [H Hl]]]|[y [q [H _]]]]]; [injection H as <- _; lia|injection H as <- _; lia|discriminate].
           ++ exists (N.leb 12 z). split. { destruct (N.eqb_spec z 12) as [->|]; [apply ge_nil|reflexivity]. }
              rewrite N.leb_le. split; [intros H; right; right; eauto|].
              intros [[y [q [H Hl]]]|[[y [q [H Hl]]]|[y [q [H Hl]]]]]; injection H as ?; subst; lia.
        -- exists (N.leb 1 y). split; [reflexivity|]. rewrite N.leb_le. split.
           ++ intros H. right. left. exists y, r. split; [reflexivity|lia].
           ++ intros [[y' [q [H Hl]]]|[[y' [q [H Hl]]]|[z [q [H Hl]]]]]; injection H as ?; subst; lia.
    + exists (N.leb 2 x). split; [reflexivity|]. rewrite N.leb_le. split.
      * intros H. left. exists x, r. split; [reflexivity|lia].
      * intros [[y [q [H Hl]]]|[[y [q [H Hl]]]|[y [q [H Hl]]]]]; injection H as ?; subst; lia.
Qed.
Theorem c78_agent_conf : forall p ns, tells_version p ns ->
  exists b, wants_agent_conf p = Ok b /\ (b = true <-> from_2_0 ns /\ ~ from_2_1_12 ns).
Proof.
  intros p ns H. unfold wants_agent_conf. rewrite (told_version p ns H). cbn [rbind].
  destruct (ge_2_0 ns) as [b1 [-> H1]]. cbn [rbind]. destruct b1.
  - destruct (ge_2_1_12 ns) as [b2 [-> H2]]. cbn [rbind]. exists (negb b2). split; [reflexivity|]. destruct b2; cbn [negb].
    + split; [discriminate|]. intros [_ Hn]. destruct Hn. apply H2. reflexivity.
    + split; [|reflexivity]. intros _. split; [apply H1; reflexivity|]. intros Hn. apply H2 in Hn. discriminate.
  - exists false. split; [reflexivity|]. split; [discriminate|]. intros [Hn _]. apply H1 in Hn. discriminate.
Qed.
Lemma cut_into_split c s ls : cut_into c s ls <-> split_on c s = ls.
Proof.
  split.
  - intros [Hn [<- Hf]]. induction ls as [|l ls IH]; [contradiction|]. inversion Hf as [|? ? Hl Hls]; subst.
    destruct ls as [|l' ls].
    + cbn [join]. apply split_on_no. intros x Hx ->. contradiction.
    + change (join [c] (l :: l' :: ls)) with (l ++ c :: join [c] (l' :: ls)). rewrite split_on_app by (intros x Hx ->; contradiction).
      f_equal. apply IH; [discriminate|exact Hls].
  - intros <-. split; [apply split_on_nonnil|]. split; [apply join_split_on|apply split_on_parts].
Qed.
Lemma version_text_info p out : version_text p out <-> version_info p = Ok out.
Proof.
  unfold version_text, version_info. destruct (version_run p) as [ret o e]. cbn [g_ret g_err g_out]. split.
  - intros [-> [He Ho]]. cbn [Z.eqb]. rewrite Ho. destruct (utf8 e); [reflexivity|contradiction].
  - destruct (Z.eqb ret 130); [discriminate|]. destruct (utf8 e) as [e'|]; [|discriminate]. destruct (utf8 o) as [o'|]; [|discriminate].
    destruct (Z.eqb_spec ret 0) as [->|]; [|discriminate]. intros [= ->]. split; [reflexivity|]. split; [discriminate|reflexivity].
Qed.
Lemma first_found {A} (f : A -> bool) (P : A -> Prop) l a : (forall x, f x = true <-> P x) -> find f l = Some a <-> first_such P l a.
Proof.
  intros Hf. split.
  - intros H. pose proof (find_first f P (fun x => x) l a Hf H) as H1. rewrite map_id in H1. exact H1.
  - intros [l1 [l2 [-> [Ha Hb]]]]. induction Hb as [|b l1 Hb _ IH]; cbn [app find].
    + apply Hf in Ha. rewrite Ha. reflexivity.
    + destruct (f b) eqn:Eb; [apply Hf in Eb; contradiction|exact IH].
Qed.
Theorem c78_eddsa : forall p b, supports_eddsa p = Ok b <->
  exists out, version_text p out /\ (b = true <-> exists r, pubkey_line out r /\ names_eddsa r).
Proof.
  intros p b. unfold supports_eddsa.
  assert (Hn : forall r, existsb (fun x => text_eqb (lower (strip x)) (L "eddsa")) (split_on 44 r) = true <-> names_eddsa r).
  { intros r. unfold names_eddsa. rewrite existsb_exists. split.
    - intros [x [Hx Ht]]. exists (split_on 44 r). split; [apply cut_into_split; reflexivity|]. apply Exists_exists. exists x. split; [exact Hx|].
      exists (strip x). split; [apply c78_strip; reflexivity|apply text_eqb_eq; exact Ht].
    - intros [names [Hc He]]. apply cut_into_split in Hc. subst names. apply Exists_exists in He as [x [Hx [t [Ht Hl]]]]. exists x. split; [exact Hx|].
      apply c78_strip in Ht. subst t. apply text_eqb_eq. exact Hl. }
  assert (Hp : forall out l, find (startswith (L "Pubkey:")) (split_on 10 out) = Some l <-> exists r, l = L "Pubkey:" ++ r /\ pubkey_line out r).
  { intros out l. rewrite (first_found _ (fun l => exists r, l = L "Pubkey:" ++ r)).
    2:{ intros x. apply startswith_spec. }
    split.
    - intros H. pose proof H as [l1 [l2 [_ [[r ->] _]]]]. exists r. split; [reflexivity|]. exists (split_on 10 out). split; [apply cut_into_split; reflexivity|exact H].
    - intros [r [-> [ls [Hc H]]]]. apply cut_into_split in Hc. subst ls. exact H. }
  assert (Hr : forall r, nth 1 (split_max 58 1 (L "Pubkey:" ++ r)) [] = r).
  { intros r. change (L "Pubkey:" ++ r) with (L "Pubkey" ++ 58%N :: r). rewrite split_max_app.
    - destruct r; reflexivity.
    - intros x Hx ->. cbn in Hx. repeat (destruct Hx as [Hx|Hx]; [discriminate|]). exact Hx. }
  split.
  - destruct (version_info p) as [out|e] eqn:Ev; cbn [rbind]; [|discriminate]. intros H. exists out. split; [apply version_text_info; exact Ev|].
    destruct (find _ _) as [l|] eqn:Ef.
    + apply Hp in Ef as [r [-> Hl]]. rewrite Hr in H. injection H as <-. rewrite Hn. split; [eauto|].
      intros [r' [Hl' H']]. assert (Hl2 : find (startswith (L "Pubkey:")) (split_on 10 out) = Some (L "Pubkey:" ++ r)) by (apply Hp; eauto).
      assert (Hl3 : find (startswith (L "Pubkey:")) (split_on 10 out) = Some (L "Pubkey:" ++ r')) by (apply Hp; eauto).
      rewrite Hl2 in Hl3. injection Hl3 as ->. exact H'.
    + injection H as <-. split; [discriminate|]. intros [r [Hl _]].
      assert (Hl2 : find (startswith (L "Pubkey:")) (split_on 10 out) = Some (L "Pubkey:" ++ r)) by (apply Hp; eauto). congruence.
  - intros [out [Hv Hb]]. apply version_text_info in Hv. rewrite Hv. cbn [rbind]. destruct (find _ _) as [l|] eqn:Ef.
    + pose proof (proj1 (Hp _ _) Ef) as [r [-> Hl]]. rewrite Hr. f_equal. apply eq_true_iff_eq. rewrite Hn, Hb. split; [eauto|].
      intros [r' [Hl' H']]. assert (Hl3 : find (startswith (L "Pubkey:")) (split_on 10 out) = Some (L "Pubkey:" ++ r')) by (apply Hp; eauto).
      rewrite Ef in Hl3. injection Hl3 as ->. exact H'.
    + f_equal. symmetry. apply not_true_iff_false. intros Ht. apply Hb in Ht as [r [Hl _]].
      assert (Hl2 : find (startswith (L "Pubkey:")) (split_on 10 out) = Some (L "Pubkey:" ++ r)) by (apply Hp; eauto). congruence.
Qed.

(** ** Processes *)
Definition did_gpg (s s' : ast) (gs : list gcall) : Prop :=
  a_trace s' = rev gs ++ a_trace s /\ a_rings s' = rings_after (a_rings s) gs /\ a_logs s' = a_logs s.
Lemma did_gpg_app s1 s2 s3 l l' : did_gpg s1 s2 l -> did_gpg s2 s3 l' -> did_gpg s1 s3 (l ++ l').
Proof.
  intros [A1 [A2 A3]] [B1 [B2 B3]]. split; [|split].
  - rewrite B1, A1, rev_app_distr, app_assoc. reflexivity.
  - rewrite B2, A2. clear. revert s1. assert (H : forall rs, rings_after (rings_after rs l) l' = rings_after rs (l ++ l')); [|intros; apply H].
    induction l as [|g l IH]; intros rs; [reflexivity|]. cbn [rings_after app]. apply IH.
  - congruence.
Qed.
Lemma begin_start g : begin_of g = gstart g.
Proof. unfold begin_of, gstart, homedirflags. destruct (gp_home g) as [[|c h]|]; reflexivity. Qed.
Lemma ring_of_home g args : first_word_ok args -> argv_home (full_argv g args) = ring_of g.
Proof.
  intros H. rewrite home_fixed by exact H. unfold gstart, ring_of, homedirflags. destruct (gp_home g) as [[|c h]|]; reflexivity.
Qed.
Lemma outerr_did g args inp tmp strict dec s s' out err : first_word_ok args ->
  arun (gpg_outerr g args inp tmp strict dec) s = (s', Ok (out, err)) ->
  let r := snd (gpg (ring_at (a_rings s) (ring_of g)) (begin_of g ++ args) inp tmp) in
  did_gpg s s' [process g args inp tmp] /\ g_ret r = 0%Z /\ utf8 (g_err r) = Some err /\ (strict = true -> err = []) /\
  (if dec then utf8 (g_out r) else Some (g_out r)) = Some out.
Proof.
  intros Hw H r. pose proof (outerr_exact _ _ _ _ _ _ _ _ _ _ H) as [H1 [H2 H3]]. cbv zeta in H1, H2, H3. unfold before_ring in *.
  rewrite (ring_of_home g args Hw), full_start, <- begin_start in *. fold r in H2, H3.
  assert (Hres : g_ret r = 0%Z /\ (strict = true -> err = [])).
  { unfold gpg_outerr in H. apply arun_bind_ok in H as [s1 [res [R1 R2]]]. unfold arun in R1. cbn [perform run astep] in R1.
    change ([gp_path g; L "--batch"] ++ homedirflags g ++ args) with (full_argv g args) in R1.
    rewrite (ring_of_home g args Hw), full_start, <- begin_start in R1. destruct (gpg (ring_at (a_rings s) (ring_of g)) (begin_of g ++ args) inp tmp) as [r' res'] eqn:Eg.
    injection R1 as <- <-. unfold r in *. cbn [snd] in *.
    destruct (Z.eqb (g_ret res') 130) eqn:E1; [discriminate|]. rewrite H2, H3 in R2.
    destruct (negb (Z.eqb (g_ret res') 0) || (strict && nonempty err)) eqn:Eb; [discriminate|].
    apply orb_false_iff in Eb as [Eb1 Eb2]. apply negb_false_iff, Z.eqb_eq in Eb1. split; [exact Eb1|]. intros ->. destruct err; [reflexivity|discriminate]. }
  split; [|tauto]. subst s'. split; [|split]; reflexivity.
Qed.
Lemma did_gpg_one s s' g args inp tmp : did_gpg s s' [process g args inp tmp] ->
  did s s' [(process g args inp tmp, snd (gpg (ring_at (a_rings s) (ring_of g)) (begin_of g ++ args) inp tmp))].
Proof. intros [H _]. eexists. split; [exact H|reflexivity]. Qed.
Lemma did_gpg_did s s' gs : did_gpg s s' gs -> did s s' (runs (a_rings s) gs).
Proof. intros [H _]. exists gs. auto. Qed.
Lemma pass_word g args : first_word_ok (nopassphrase g ++ args).
Proof. unfold nopassphrase. cbn. discriminate. Qed.

Lemma list_packets_did g data s s' ps : arun (list_packets g data) s = (s', Ok ps) ->
  let r := snd (gpg (ring_at (a_rings s) (ring_of g)) (begin_of g ++ [L "--list-packets"]) (Some data) None) in
  did_gpg s s' [process g [L "--list-packets"] (Some data) None] /\ g_ret r = 0%Z /\ exists out, utf8 (g_out r) = Some out /\ ps <> [] /\ packets_written out ps.
Proof.
  intros H r. unfold list_packets in H. apply arun_bind_ok in H as [s1 [[out err] [H1 H]]]. apply arun_lift_ok in H as [-> H].
  apply outerr_did in H1 as [H1 [H2 [H3 [_ H4]]]]; [|discriminate]. split; [exact H1|]. split; [exact H2|]. exists out. split; [exact H4|].
  pose proof (c78_packets out) as Hp. rewrite H in Hp. exact Hp.
Qed.
Theorem c78_list_packets : forall g data s s' ps, arun (list_packets g data) s = (s', Ok ps) ->
  exists r out, did s s' [(process g [L "--list-packets"] (Some data) None, r)] /\ g_ret r = 0%Z /\ utf8 (g_out r) = Some out /\
    ps <> [] /\ packets_written out ps /\ a_logs s' = a_logs s.
Proof.
  intros g data s s' ps H. apply list_packets_did in H as [H1 [H2 [out [H3 [H4 H5]]]]]. eexists; exists out. split; [apply did_gpg_one, H1|].
  pose proof (proj2 (proj2 H1)). tauto.
Qed.
Theorem c78_list_packets_returns : forall g data s out ps,
  let r := snd (gpg (ring_content s (ring_of g)) (begin_of g ++ [L "--list-packets"]) (Some data) None) in
  g_ret r = 0%Z -> utf8 (g_err r) <> None -> utf8 (g_out r) = Some out -> packets_written out ps -> ps <> [] ->
  snd (arun (list_packets g data) s) = Ok ps.
Proof.
  intros g data s out ps r H0 He Ho Hp Hn. unfold list_packets, gpg_outerr. rewrite !arun_bind. unfold perform, arun at 1. cbn [run astep].
  change ([gp_path g; L "--batch"] ++ homedirflags g ++ [L "--list-packets"]) with (full_argv g [L "--list-packets"]).
  rewrite (ring_of_home g [L "--list-packets"]) by discriminate. rewrite full_start, <- begin_start. unfold ring_content in r.
  destruct (gpg (ring_at (a_rings s) (ring_of g)) (begin_of g ++ [L "--list-packets"]) (Some data) None) as [r' res]. unfold r in *. cbn [snd] in *.
  rewrite H0. cbn [Z.eqb negb orb andb]. destruct (utf8 (g_err res)) as [err|]; [|congruence]. rewrite Ho.
  change (arun (Ret (out, err))) with (fun s : ast => (s, Ok (out, err))). cbv beta iota.
  rewrite (c78_packets_unique out ps Hp Hn). reflexivity.
Qed.
Lemma export_then g args s s1 s' k ps : first_word_ok args ->
  (exists err, arun (gpg_outerr g args None None true false) s = (s1, Ok (k, err))) -> arun (list_packets g k) s1 = (s', Ok ps) ->
  exists r1 r2 out, did s s' [(process g args None None, r1); (process g [L "--list-packets"] (Some k) None, r2)] /\
    put_out r1 k /\ g_err r1 = [] /\ g_ret r2 = 0%Z /\ utf8 (g_out r2) = Some out /\ ps <> [] /\ packets_written out ps.
Proof.
  intros Hw [err H1] H2. apply outerr_did in H1 as [H1 [A1 [A2 [A3 A4]]]]; [|exact Hw]. apply list_packets_did in H2 as [H2 [B1 [out [B2 [B3 B4]]]]].
  pose proof (did_gpg_did _ _ _ (did_gpg_app _ _ _ _ _ H1 H2)) as Hd. cbn [app runs] in Hd. eexists _, _, out. split; [exact Hd|].
  rewrite (proj1 (proj2 H1)) in B1, B2. cbn [rings_after] in B1, B2. specialize (A3 eq_refl). subst err. injection A4 as A4.
  split; [split; [exact A1|split; [intros Hx; assert (Hy : Some ([] : text) = None) by (etransitivity; [symmetry; exact A2|exact Hx]); discriminate|exact A4]]|]. split; [|auto].
  apply utf8_inverse in A2. injection A2 as A2. symmetry. exact A2.
Qed.
Theorem c78_public_key_packets : forall g kh s s' ps, arun (list_public_key_packets g kh) s = (s', Ok ps) ->
  exists r1 r2 k out,
    did s s' [(process g [L "--export-options=export-minimal"; L "--export"; kh] None None, r1); (process g [L "--list-packets"] (Some k) None, r2)] /\
    put_out r1 k /\ g_err r1 = [] /\ g_ret r2 = 0%Z /\ utf8 (g_out r2) = Some out /\ ps <> [] /\ packets_written out ps.
Proof.
  intros g kh s s' ps H. unfold list_public_key_packets in H. apply arun_bind_ok in H as [s1 [k [H1 H2]]].
  unfold get_public_keydata in H1. apply arun_bind_ok in H1 as [s2 [[o e] [H1 H3]]]. apply arun_ret_ok in H3 as [-> ->].
  destruct (export_then g [L "--export-options=export-minimal"; L "--export"; kh] s s2 s' o ps) as [r1 [r2 [out H]]]; [discriminate|eauto|exact H2|].
  exists r1, r2, o, out. exact H.
Qed.
Theorem c78_secret_key_packets : forall g kh s s' ps, arun (list_secret_key_packets g kh) s = (s', Ok ps) ->
  exists pass r1 r2 k out, pass_args pass /\
    did s s' [(process g (pass ++ [L "--export-options=export-minimal"; L "--export-secret-key"; kh]) None None, r1);
              (process g [L "--list-packets"] (Some k) None, r2)] /\
    put_out r1 k /\ g_err r1 = [] /\ g_ret r2 = 0%Z /\ utf8 (g_out r2) = Some out /\ ps <> [] /\ packets_written out ps.
Proof.
  intros g kh s s' ps H. unfold list_secret_key_packets in H. apply arun_bind_ok in H as [s1 [k [H1 H2]]].
  unfold get_secret_keydata, version_known in H1. apply arun_bind_ok in H1 as [s2 [b [Hv H1]]]. apply arun_lift_ok in Hv as [-> _].
  apply arun_bind_ok in H1 as [s2 [[o e] [H1 H3]]]. apply arun_ret_ok in H3 as [-> ->]. cbn [app] in H1.
  destruct (export_then g (nopassphrase g ++ [L "--export-options=export-minimal"; L "--export-secret-key"; kh]) s s2 s' o ps) as [r1 [r2 [out H]]];
    [apply pass_word|eauto|exact H2|].
  exists (nopassphrase g), r1, r2, o, out. split; [apply nopass_args|exact H].
Qed.
Theorem c78_sign : forall g data kh s s' sig, arun (gpg_sign g data kh) s = (s', Ok sig) ->
  exists pass r, pass_args pass /\ did s s' [(process g (pass ++ [L "--detach-sign"; L "-u"; kh]) (Some data) None, r)] /\ put_out r sig /\ a_logs s' = a_logs s.
Proof.
  intros g data kh s s' sig H. unfold gpg_sign, version_known in H. apply arun_bind_ok in H as [s2 [b [Hv H1]]]. apply arun_lift_ok in Hv as [-> _].
  apply arun_bind_ok in H1 as [s2 [[o e] [H1 H3]]]. apply arun_ret_ok in H3 as [-> ->].
  apply outerr_did in H1 as [H1 [A1 [A2 [_ A4]]]]; [|apply pass_word]. exists (nopassphrase g). eexists. split; [apply nopass_args|].
  split; [apply did_gpg_one, H1|]. injection A4 as A4. split; [|exact (proj2 (proj2 H1))]. split; [exact A1|]. split; [rewrite A2; discriminate|exact A4].
Qed.
Theorem c78_sign_returns : forall g data kh s ns pass sig, tells_version (gp_path g) ns ->
  (from_2_1 ns /\ pass = [L "--passphrase"; L "123"; L "--pinentry-mode=loopback"]) \/ (~ from_2_1 ns /\ pass = [L "--passphrase"; L "123"]) ->
  put_out (snd (gpg (ring_content s (ring_of g)) (begin_of g ++ pass ++ [L "--detach-sign"; L "-u"; kh]) (Some data) None)) sig ->
  snd (arun (gpg_sign g data kh) s) = Ok sig.
Proof.
  intros g data kh s ns pass sig Hv Hp [H0 [He Ho]]. destruct (told_gpg21 _ _ Hv) as [b [Hb Hi]].
  assert (Hpass : nopassphrase g = pass).
  { unfold nopassphrase, gpg21. rewrite Hb. destruct Hp as [[Hp ->]|[Hp ->]]; destruct b; try reflexivity; exfalso; [apply Hi in Hp; discriminate|apply Hp, Hi; reflexivity]. }
  unfold gpg_sign, version_known. rewrite arun_bind, Hb. change (arun (lift (Ok b)) s) with (s, @Ok bool b). cbv beta iota. unfold gpg_outerr. rewrite !arun_bind. unfold perform, arun at 1. cbn [run astep].
  change ([gp_path g; L "--batch"] ++ homedirflags g ++ nopassphrase g ++ [L "--detach-sign"; L "-u"; kh]) with (full_argv g (nopassphrase g ++ [L "--detach-sign"; L "-u"; kh])).
  rewrite (ring_of_home g (nopassphrase g ++ _)) by apply pass_word. rewrite full_start, <- begin_start, Hpass. unfold ring_content in *.
  destruct (gpg (ring_at (a_rings s) (ring_of g)) _ (Some data) None) as [r' res]. cbn [snd] in *.
  rewrite H0. cbn [Z.eqb negb orb andb]. destruct (utf8 (g_err res)) as [err|]; [|congruence]. rewrite <- Ho. reflexivity.
Qed.
Lemma find_keyhandle_did g err s s' kh : arun (find_keyhandle g err) s = (s', Ok kh) -> exists gs, did_gpg s s' gs.
Proof.
  unfold find_keyhandle. intros H. destruct (search_key err) as [x|]; [|discriminate]. destruct (Nat.leb (length x) 8).
  - apply arun_bind_ok in H as [s1 [l [H1 H]]]. unfold list_public_keyinfos, parse_list in H1. apply arun_bind_ok in H1 as [s2 [[o e] [H1 H2]]].
    apply arun_lift_ok in H2 as [-> _]. apply outerr_did in H1 as [H1 _]; [|discriminate].
    destruct (find _ l) as [k|]; [|discriminate]. apply arun_ret_ok in H as [-> _]. eauto.
  - apply arun_ret_ok in H as [-> _]. exists []. split; [|split]; reflexivity.
Qed.
Theorem c78_verify : forall g data sig s s' kh, arun (gpg_verify g data sig) s = (s', Ok kh) ->
  let args := [L "--verify"; L "<tmpfile>"; L "-"] in
  let run := gpg (ring_content s (ring_of g)) (begin_of g ++ args) (Some data) (Some sig) in
  exists err more, did s s' ((process g args (Some data) (Some sig), snd run) :: more) /\ g_ret (snd run) = 0%Z /\
    utf8 (g_err (snd run)) = Some err /\ utf8 (g_out (snd run)) <> None /\ reported (fst run) (begin_of g) err kh /\ a_logs s' = a_logs s.
Proof.
  intros g data sig s s' kh H args run. unfold gpg_verify in H. apply arun_bind_ok in H as [s1 [[o err] [H1 H]]].
  apply outerr_did in H1 as [H1 [A1 [A2 [_ A4]]]]; [|discriminate]. pose proof (find_keyhandle_exact _ _ _ _ _ H) as Hr.
  destruct (find_keyhandle_did _ _ _ _ _ H) as [gs Hg]. pose proof (did_gpg_app _ _ _ _ _ H1 Hg) as Hd. pose proof (proj2 (proj2 Hd)) as Hlog.
  apply did_gpg_did in Hd. cbn [app runs] in Hd. exists err. eexists. split; [exact Hd|]. split; [exact A1|]. split; [exact A2|]. split; [change (utf8 (g_out (snd run)) = Some o) in A4; congruence|]. split; [|exact Hlog].
  rewrite begin_start. rewrite (proj1 (proj2 H1)) in Hr. cbn [rings_after process gc_home gc_argv gc_in gc_tmp] in Hr.
  assert (Hh : argv_home (gstart g ++ [[]]) = ring_of g).
  { rewrite <- (ring_of_home g [[]]) by discriminate. rewrite full_start. reflexivity. }
  rewrite Hh in Hr. unfold ring_at in Hr at 1. rewrite dget_dset, text_eqb_refl in Hr. unfold run, ring_content, args. rewrite begin_start in *. exact Hr.
Qed.
Theorem c78_killagent : forall g s s' ns, tells_version (gp_path g) ns -> arun (killagent g) s = (s', Ok tt) ->
  (~ from_2_0 ns /\ s' = s) \/
  (from_2_0 ns /\ exists p r, located (L "gpg-connect-agent") p /\
    did s s' [(GCall (ring_of g) ([p; L "--no-autostart"] ++ match gp_home g with Some (c :: h) => [L "--homedir"; c :: h] | _ => [] end ++ [L "KILLAGENT"]) None None, r)] /\
    a_logs s' = a_logs s).
Proof.
  intros g s s' ns Hv H. unfold killagent in H. apply arun_bind_ok in H as [s1 [b [H1 H]]]. apply arun_lift_ok in H1 as [-> Hb].
  unfold isgpg2 in Hb. rewrite (told_version _ _ Hv) in Hb. cbn [rbind] in Hb. destruct (ge_2_0 ns) as [b' [Hb' Hi]]. rewrite Hb' in Hb. injection Hb as ->.
  destruct b.
  - right. split; [apply Hi; reflexivity|]. destruct (find_executable (L "gpg-connect-agent")) as [p|] eqn:Ef; [|discriminate].
    apply arun_bind_ok in H as [s2 [r [H1 H]]]. apply arun_ret_ok in H as [-> _]. exists p, r. split; [apply located_found; exact Ef|].
    unfold arun in H1. cbn [perform run astep] in H1.
    set (argv := [p; L "--no-autostart"] ++ homedirflags g ++ [L "KILLAGENT"]) in *.
    assert (Ha : argv = [p; L "--no-autostart"] ++ match gp_home g with Some (c :: h) => [L "--homedir"; c :: h] | _ => [] end ++ [L "KILLAGENT"]).
    { unfold argv, homedirflags. destruct (gp_home g) as [[|c h]|]; reflexivity. }
    assert (Hh : argv_home argv = ring_of g). { rewrite Ha. unfold ring_of. destruct (gp_home g) as [[|c h]|]; reflexivity. }
    rewrite <- Ha, <- Hh. destruct (gpg (ring_at (a_rings s) (argv_home argv)) argv None None) as [r' res] eqn:Eg. injection H1 as <- <-.
    split; [|reflexivity]. exists [GCall (argv_home argv) argv None None]. split; [reflexivity|]. cbn [runs gc_home gc_argv gc_in gc_tmp]. rewrite Eg. reflexivity.
  - left. apply arun_ret_ok in H as [-> _]. split; [|reflexivity]. intros Hn. apply Hi in Hn. discriminate.
Qed.
End GpgMoreProofs.
