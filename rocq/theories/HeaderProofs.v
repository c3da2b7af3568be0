(** Proofs for C24-C28. *)
From Coq Require Import Permutation.
From Verif Require Import Base PyStr Base64 Env Mime Spec HeaderSpec.

Lemma blank_forallb w : blank w <-> forallb is_space w = true.
Proof. unfold blank. rewrite forallb_forall. reflexivity. Qed.

Lemma trimmed_stripped s : trimmed s -> stripped s = true.
Proof.
  intros [H1 H2]. unfold stripped. apply andb_true_iff; split.
  - destruct s as [|c r]; [reflexivity|]. rewrite (H1 c r eq_refl). reflexivity.
  - destruct (rev s) as [|c r] eqn:E; [reflexivity|].
    rewrite (H2 c (rev r)); [reflexivity|].
    rewrite <- (rev_involutive s), E. reflexivity.
Qed.
Lemma trimmed_strip s : trimmed s -> strip s = s.
Proof. intros H. apply strip_id, trimmed_stripped, H. Qed.

Lemma rstrip_spec s : exists w, s = rstrip s ++ w /\ forallb is_space w = true.
Proof.
  destruct (lstrip_spec (rev s)) as [w [H1 H2]]. exists (rev w). unfold rstrip. split.
  - rewrite <- rev_app_distr, <- H1, rev_involutive. reflexivity.
  - rewrite forallb_forall in *. intros x Hx. apply H2, in_rev, Hx.
Qed.

Lemma strip_spec s : exists w1 w2, s = w1 ++ strip s ++ w2 /\ blank w1 /\ blank w2.
Proof.
  destruct (lstrip_spec s) as [w1 [H1 H2]]. destruct (rstrip_spec (lstrip s)) as [w2 [H3 H4]].
  exists w1, w2. split; [|split; apply blank_forallb; assumption].
  unfold strip. rewrite H1 at 1. rewrite H3 at 1. reflexivity.
Qed.

Lemma lstrip_last s c r : lstrip s = r ++ [c] -> exists r', s = r' ++ [c].
Proof.
  intros H. destruct (lstrip_spec s) as [w [H1 _]]. exists (w ++ r). rewrite H1, H, app_assoc. reflexivity.
Qed.

Lemma strip_trimmed s : trimmed (strip s).
Proof.
  unfold trimmed, strip. split.
  - intros c r H. destruct (rstrip_spec (lstrip s)) as [w [H1 _]]. rewrite H in H1.
    pose proof (lstrip_head s) as Hh. rewrite H1 in Hh. exact Hh.
  - intros c r H. unfold rstrip in H. apply (f_equal (@rev N)) in H. rewrite rev_involutive, rev_app_distr in H.
    pose proof (lstrip_head (rev (lstrip s))) as Hh. rewrite H in Hh. exact Hh.
Qed.

Lemma strip_blank w : blank w -> strip w = [].
Proof.
  intros H. apply blank_forallb in H.
  rewrite <- (app_nil_r w), strip_space_l by assumption. reflexivity.
Qed.

Lemma no_spaces_app a b : no_spaces (a ++ b) = no_spaces a ++ no_spaces b.
Proof. apply filter_app. Qed.
Lemma no_spaces_blank w : blank w -> no_spaces w = [].
Proof.
  intros H. induction w as [|c w IH]; [reflexivity|]. unfold no_spaces. cbn [filter].
  rewrite (H c (or_introl eq_refl)). cbn [negb]. apply IH. intros x Hx. apply H. right; exact Hx.
Qed.
Lemma no_spaces_strip s : no_spaces (strip s) = no_spaces s.
Proof.
  destruct (strip_spec s) as [w1 [w2 [H [H1 H2]]]]. rewrite H at 2.
  rewrite !no_spaces_app, (no_spaces_blank w1 H1), (no_spaces_blank w2 H2), app_nil_r. reflexivity.
Qed.
Lemma no_spaces_rstrip s : no_spaces (rstrip s) = no_spaces s.
Proof.
  destruct (rstrip_spec s) as [w [H H1]]. rewrite H at 2. apply blank_forallb in H1.
  rewrite no_spaces_app, (no_spaces_blank w H1), app_nil_r. reflexivity.
Qed.

Lemma blank_not_eq w : blank w -> ~ In 61%N w.
Proof. intros H Hi. specialize (H _ Hi). discriminate H. Qed.
Lemma blank_not_semi w : blank w -> ~ In 59%N w.
Proof. intros H Hi. specialize (H _ Hi). discriminate H. Qed.

(** a segment, taken apart *)
Lemma segment_parts seg n v : segment_of seg n v ->
  exists k r, split_max 61 1 (strip seg) = [k; r] /\ strip k = n /\ strip r = v /\ strip seg <> [] /\ ~ In 59%N seg.
Proof.
  intros [w1 [w2 [w3 [w4 [-> [B1 [B2 [B3 [B4 [Hn [Tn [Tv [N1 [N2 N3]]]]]]]]]]]]]].
  pose proof (trimmed_strip _ Tn) as Sn. pose proof (trimmed_strip _ Tv) as Sv.
  set (r0 := w3 ++ v ++ w4).
  assert (Hs : strip (w1 ++ n ++ w2 ++ L "=" ++ r0) = (n ++ w2) ++ 61%N :: rstrip r0).
  { rewrite strip_space_l by (apply blank_forallb; assumption).
    unfold strip. rewrite lstrip_id.
    2:{ destruct n as [|c n]; [congruence|]. cbn [app]. apply (proj1 Tn) with (r := n). reflexivity. }
    unfold rstrip. rewrite !rev_app_distr. change (rev (L "=")) with [61%N].
    destruct (lstrip_spec (rev r0)) as [w [E1 E2]]. rewrite E1 at 1.
    rewrite <- !app_assoc. rewrite lstrip_app_space by exact E2.
    destruct (lstrip (rev r0)) as [|c l] eqn:El.
    - cbn [app lstrip]. change (is_space 61) with false. cbn iota.
      change (61%N :: rev w2 ++ rev n) with ([61%N] ++ (rev w2 ++ rev n)).
      rewrite !rev_app_distr, !rev_involutive. cbn [rev app]. rewrite <- app_assoc. reflexivity.
    - rewrite lstrip_id by (pose proof (lstrip_head (rev r0)) as Hh; rewrite El in Hh; exact Hh).
      rewrite !rev_app_distr, !rev_involutive. change (rev [61%N]) with [61%N]. rewrite <- !app_assoc. reflexivity. }
  exists (n ++ w2), (rstrip r0). split; [|split; [|split; [|split]]].
  - rewrite Hs, split_max_app; [destruct (rstrip r0); reflexivity|].
    intros x Hx ->. apply in_app_or in Hx as [Hx|Hx]; [exact (N1 Hx) | exact (blank_not_eq _ B2 Hx)].
  - rewrite strip_space_r by (apply blank_forallb; assumption). exact Sn.
  - destruct (rstrip_spec r0) as [w [H1 H2]]. rewrite <- (strip_space_r w) by exact H2.
    rewrite <- H1. unfold r0. rewrite strip_space_l, strip_space_r by (apply blank_forallb; assumption). exact Sv.
  - rewrite Hs. destruct (n ++ w2); discriminate.
  - unfold r0. rewrite !in_app_iff. pose proof (blank_not_semi _ B1). pose proof (blank_not_semi _ B2).
    pose proof (blank_not_semi _ B3). pose proof (blank_not_semi _ B4).
    intros H'. repeat destruct H' as [H'|H']; try contradiction. discriminate H'.
Qed.

Lemma split_join segs : Forall (fun s => ~ In 59%N s) segs -> segs <> [] -> split_on 59 (join (L ";") segs) = segs.
Proof.
  induction segs as [|x [|y segs] IH]; intros HF Hne; [congruence| |].
  - inversion HF; subst. apply split_on_no. intros z Hz ->. contradiction.
  - inversion HF as [|? ? Hx HF']; subst.
    change (join (L ";") (x :: y :: segs)) with (x ++ 59%N :: join (L ";") (y :: segs)).
    rewrite split_on_app by (intros z Hz ->; contradiction).
    rewrite IH by (assumption || discriminate). reflexivity.
Qed.

Lemma segments_no_semi segs attrs : segments segs attrs -> Forall (fun s => ~ In 59%N s) segs.
Proof.
  induction 1 as [|w segs attrs Hw Hs IH|seg n v segs attrs Hs Hss IH]; constructor; auto.
  - apply blank_not_semi; assumption.
  - destruct (segment_parts _ _ _ Hs) as [k [r H]]. apply H.
Qed.

Section Meaning.
Context {E : Env}.

(** the loop of parse_ac_headervalue on attributes already taken apart *)
Definition attr_step (st : hstate) (a : text * text) : hstate + pah :=
  let '(name, value) := a in
  if text_eqb name (L "keydata") then
    match b64decode (no_spaces value) with
    | Ok b => inl (HS (Some b) (h_pref st) (h_addr st) (h_extra st))
    | Err _ => inr (pah_error (L "failed to decode keydata"))
    end
  else if text_eqb name (L "prefer-encrypt") then
    if mem_text value [L "nopreference"; L "mutual"] then inl (HS (h_kd st) value (h_addr st) (h_extra st))
    else inr (pah_error (L "unknown prefer-encrypt setting '" ++ value ++ L "'"))
  else if text_eqb name (L "addr") then
    inl (HS (h_kd st) (h_pref st) (Some (norm value)) (h_extra st))
  else
    match name with
    | 95%N :: _ => inl (HS (h_kd st) (h_pref st) (h_addr st) (dset (h_extra st) name value))
    | _ => inr (pah_error (L "unknown critical attr '" ++ name ++ L "'"))
    end.
Fixpoint attr_loop (st : hstate) (attrs : list (text * text)) : hstate + pah :=
  match attrs with
  | [] => inl st
  | a :: attrs' => match attr_step st a with inl st' => attr_loop st' attrs' | inr p => inr p end
  end.
Definition conclude (r : hstate + pah) : pah :=
  match r with
  | inr p => p
  | inl st =>
    match h_kd st with
    | None => pah_error (L "critical attr 'keydata' missing")
    | Some kd =>
      match h_addr st with
      | None => pah_error (L "critical attr 'addr' missing")
      | Some a => PAH (Some kd) (Some a) (Some (h_pref st)) (Some (h_extra st)) None
      end
    end
  end.
Definition start : hstate := HS None (L "nopreference") None [].

Lemma ac_step_attr st seg n v : segment_of seg n v -> ac_step st (strip seg) = Ok (attr_step st (n, v)).
Proof.
  intros Hs. assert (Hn : n <> []) by (destruct Hs as [? [? [? [? H]]]]; apply H).
  destruct (segment_parts _ _ _ Hs) as [k [r [H1 [H2 [H3 _]]]]].
  unfold ac_step. rewrite H1. cbv zeta. rewrite H2, H3. unfold attr_step. rewrite join_split_ws. fold (no_spaces v).
  destruct (text_eqb n (L "keydata")); [destruct (b64decode (no_spaces v)); reflexivity|].
  destruct (text_eqb n (L "prefer-encrypt")); [destruct (mem_text v _); reflexivity|].
  destruct (text_eqb n (L "addr")); [reflexivity|].
  destruct n as [|c n]; [congruence|]. destruct (N.eqb_spec c 95) as [->|Hc]; [reflexivity|].
  destruct c as [|p]; [reflexivity|]. do 8 (try (destruct p as [p|p|]; try reflexivity)). congruence.
Qed.

Lemma ac_loop_attrs segs attrs : segments segs attrs -> forall st,
  ac_loop st (filter nonempty (map strip segs)) = Ok (attr_loop st attrs).
Proof.
  induction 1 as [|w segs attrs Hw Hs IH|seg n v segs attrs Hs Hss IH]; intros st.
  - reflexivity.
  - cbn [map]. rewrite (strip_blank w Hw). apply IH.
  - cbn [map filter]. destruct (segment_parts _ _ _ Hs) as [k [r [_ [_ [_ [Hne _]]]]]].
    destruct (nonempty (strip seg)) eqn:En; [|destruct (strip seg); [congruence | discriminate]].
    cbn [ac_loop attr_loop]. rewrite (ac_step_attr st seg n v Hs).
    destruct (attr_step st (n, v)); [apply IH | reflexivity].
Qed.

Lemma parse_attrs v attrs : lists_attrs v attrs -> parse_ac_headervalue v = Ok (conclude (attr_loop start attrs)).
Proof.
  intros [segs [Hs ->]]. unfold parse_ac_headervalue.
  assert (Hl : ac_loop start (filter nonempty (map strip (split_on 59 (join (L ";") segs)))) = Ok (attr_loop start attrs)).
  { destruct segs as [|x segs].
    - inversion Hs; subst. reflexivity.
    - rewrite split_join; [|eapply segments_no_semi; eassumption|discriminate].
      apply ac_loop_attrs, Hs. }
  cbv zeta. unfold start in Hl. rewrite Hl. cbn [rbind]. fold start.
  destruct (attr_loop start attrs) as [st|p]; [|reflexivity]. unfold conclude.
  destruct (h_kd st); [|reflexivity]. destruct (h_addr st); reflexivity.
Qed.

(** what the loop computes *)
Lemma attr_step_ok st a st' : attr_step st a = inl st' ->
  acceptable a /\
  (forall b, fst a = L "keydata" -> b64decode (no_spaces (snd a)) = Ok b -> h_kd st' = Some b) /\
  (fst a <> L "keydata" -> h_kd st' = h_kd st) /\
  h_addr st' = (if text_eqb (fst a) (L "addr") then Some (norm (snd a)) else h_addr st) /\
  h_pref st' = (if text_eqb (fst a) (L "prefer-encrypt") then snd a else h_pref st) /\
  (forall n, startswith (L "_") n = true -> dget (h_extra st') n = if text_eqb (fst a) n then Some (snd a) else dget (h_extra st) n) /\
  (forall n, startswith (L "_") n = false -> dget (h_extra st') n = dget (h_extra st) n).
Proof.
  destruct a as [name value]. unfold attr_step, acceptable. cbn [fst snd].
  destruct (text_eqb_spec name (L "keydata")) as [->|H1].
  { destruct (b64decode (no_spaces value)) as [b|] eqn:Eb; [|discriminate]. intros [= <-]. cbn [h_kd h_addr h_pref h_extra].
    split; [left; eauto|]. split; [congruence|]. split; [congruence|]. split; [reflexivity|]. split; [reflexivity|].
    split; [|reflexivity]. intros n Hn. destruct (text_eqb_spec (L "keydata") n) as [<-|]; [discriminate Hn | reflexivity]. }
  destruct (text_eqb_spec name (L "prefer-encrypt")) as [->|H2].
  { destruct (mem_text value [L "nopreference"; L "mutual"]) eqn:Em; [|discriminate]. intros [= <-]. cbn [h_kd h_addr h_pref h_extra].
    split; [right; left; split; [reflexivity|]; apply mem_text_In in Em as [<-|[<-|[]]]; auto|].
    split; [congruence|]. split; [reflexivity|]. split; [reflexivity|]. split; [reflexivity|].
    split; [|reflexivity]. intros n Hn. destruct (text_eqb_spec (L "prefer-encrypt") n) as [<-|]; [discriminate Hn | reflexivity]. }
  destruct (text_eqb_spec name (L "addr")) as [->|H3].
  { intros [= <-]. cbn [h_kd h_addr h_pref h_extra].
    split; [auto|]. split; [congruence|]. split; [reflexivity|]. split; [reflexivity|]. split; [reflexivity|].
    split; [|reflexivity]. intros n Hn. destruct (text_eqb_spec (L "addr") n) as [<-|]; [discriminate Hn | reflexivity]. }
  destruct name as [|c name]; [discriminate|].
  destruct (N.eq_dec c 95) as [->|Hc].
  { intros [= <-]. cbn [h_kd h_addr h_pref h_extra].
    split; [right; right; right; exists name; reflexivity|].
    split; [congruence|]. split; [reflexivity|]. split; [reflexivity|]. split; [reflexivity|]. split.
    - intros n Hn. rewrite dget_dset, text_eqb_sym. reflexivity.
    - intros n Hn. rewrite dget_dset_other; [reflexivity|]. intros ->. discriminate Hn. }
  intros H. exfalso.
  destruct c as [|p]; [discriminate H|]. do 8 (try (destruct p as [p|p|]; try discriminate H)). congruence.
Qed.

Lemma attr_step_bad st a p : attr_step st a = inr p -> ~ acceptable a /\ has_error p = true.
Proof.
  destruct a as [name value]. unfold attr_step, acceptable. cbn [fst snd].
  destruct (text_eqb_spec name (L "keydata")) as [->|H1].
  { destruct (b64decode (no_spaces value)) as [b|] eqn:Eb; [discriminate|]. intros [= <-]. split; [|reflexivity].
    intros [[_ [b Hb]]|[[Hb _]|[Hb|[r Hb]]]]; discriminate Hb || congruence. }
  destruct (text_eqb_spec name (L "prefer-encrypt")) as [->|H2].
  { destruct (mem_text value [L "nopreference"; L "mutual"]) eqn:Em; [discriminate|]. intros [= <-]. split; [|reflexivity].
    intros [[Hb _]|[[_ [Hb|Hb]]|[Hb|[r Hb]]]]; try discriminate Hb; subst; discriminate Em. }
  destruct (text_eqb_spec name (L "addr")) as [->|H3]; [discriminate|].
  intros H. split.
  - intros [[Hb _]|[[Hb _]|[Hb|[r Hb]]]]; try congruence. subst name. discriminate H.
  - destruct name as [|c name]; [injection H as <-; reflexivity|].
    destruct c as [|q]; [injection H as <-; reflexivity|].
    do 8 (try (destruct q as [q|q|]; try (injection H as <-; reflexivity))); try discriminate H.
Qed.

Lemma attr_loop_bad attrs st p : attr_loop st attrs = inr p -> ~ Forall acceptable attrs /\ has_error p = true.
Proof.
  revert st; induction attrs as [|a attrs IH]; intros st; cbn [attr_loop]; [discriminate|].
  destruct (attr_step st a) as [st'|q] eqn:Es.
  - intros H. destruct (IH _ H) as [H1 H2]. split; [|exact H2]. intros HF. inversion HF; auto.
  - intros [= <-]. destruct (attr_step_bad _ _ _ Es) as [H1 H2]. split; [|exact H2]. intros HF. inversion HF; auto.
Qed.

Definition or_else {A} (o d : option A) : option A := match o with Some x => Some x | None => d end.

Lemma attr_loop_ok attrs st st' : attr_loop st attrs = inl st' ->
  Forall acceptable attrs /\
  (match last_value (L "keydata") attrs with
   | Some v => exists b, b64decode (no_spaces v) = Ok b /\ h_kd st' = Some b
   | None => h_kd st' = h_kd st
   end) /\
  h_addr st' = or_else (option_map norm (last_value (L "addr") attrs)) (h_addr st) /\
  Some (h_pref st') = or_else (last_value (L "prefer-encrypt") attrs) (Some (h_pref st)) /\
  (forall n, dget (h_extra st') n = or_else (underscored attrs n) (dget (h_extra st) n)).
Proof.
  revert st; induction attrs as [|a attrs IH]; intros st; cbn [attr_loop].
  - intros [= <-]. split; [constructor|]. do 3 (split; [reflexivity|]).
    intros n. unfold underscored. cbn [last_value]. destruct (startswith (L "_") n); reflexivity.
  - destruct (attr_step st a) as [st1|q] eqn:Es; [|discriminate]. intros H.
    destruct (IH _ H) as [I1 [I2 [I3 [I4 I5]]]].
    destruct (attr_step_ok _ _ _ Es) as [S1 [S2 [S3 [S4 [S5 [S6 S7]]]]]].
    destruct a as [k v]. cbn [fst snd] in *. cbn [last_value].
    split; [constructor; assumption|]. split; [|split; [|split]].
    + destruct (last_value (L "keydata") attrs) as [w|]; [exact I2|].
      destruct (text_eqb_spec k (L "keydata")) as [Ek|Ek].
      * destruct S1 as [[_ [b Hb]]|[[Hb _]|[Hb|[r Hb]]]]; cbn [fst snd] in *; try (rewrite Ek in Hb; discriminate Hb).
        exists b. split; [exact Hb|]. rewrite I2. apply S2; assumption.
      * rewrite I2. apply S3, Ek.
    + rewrite I3, S4. destruct (last_value (L "addr") attrs); cbn [option_map or_else]; [reflexivity|].
      destruct (text_eqb k (L "addr")); reflexivity.
    + rewrite I4, S5. destruct (last_value (L "prefer-encrypt") attrs); cbn [or_else]; [reflexivity|].
      destruct (text_eqb k (L "prefer-encrypt")); reflexivity.
    + intros n. rewrite I5. unfold underscored. cbn [last_value]. destruct (startswith (L "_") n) eqn:En.
      * rewrite S6 by exact En. destruct (last_value n attrs); cbn [or_else]; [reflexivity|].
        destruct (text_eqb k n); reflexivity.
      * rewrite S7 by exact En. reflexivity.
Qed.

(** ** C26, full meaning *)
Lemma c26_meaning v attrs : lists_attrs v attrs ->
  (valid_attrs attrs /\ exists a k key,
     last_value (L "addr") attrs = Some a /\ last_value (L "keydata") attrs = Some k /\ b64decode (no_spaces k) = Ok key /\
     states v (norm a) key (pref_stated attrs) (underscored attrs)) \/
  (~ valid_attrs attrs /\ rejected v).
Proof.
  intros Hv. pose proof (parse_attrs _ _ Hv) as Hp.
  destruct (attr_loop start attrs) as [st|p] eqn:El.
  - destruct (attr_loop_ok _ _ _ El) as [H1 [H2 [H3 [H4 H5]]]]. cbn [start h_kd h_addr h_pref h_extra] in *.
    destruct (last_value (L "keydata") attrs) as [k|] eqn:Ek.
    2:{ right. split; [intros [_ [Hc _]]; congruence|]. eexists; split; [exact Hp|]. cbn [conclude]. rewrite H2. reflexivity. }
    destruct H2 as [key [D1 D2]].
    destruct (last_value (L "addr") attrs) as [a|] eqn:Ea; cbn [option_map or_else] in H3.
    2:{ right. split; [intros [_ [_ Hc]]; congruence|]. eexists; split; [exact Hp|]. cbn [conclude]. rewrite D2, H3. reflexivity. }
    left. split; [split; [exact H1 | split; congruence]|]. exists a, k, key. do 3 (split; [reflexivity || assumption|]).
    eexists; exists (h_extra st). split; [exact Hp|]. cbn [conclude]. rewrite D2, H3. cbn [has_error p_error p_addr p_keydata p_pref p_extra].
    do 3 (split; [reflexivity|]). split.
    + rewrite H4. unfold pref_stated. destruct (last_value (L "prefer-encrypt") attrs); reflexivity.
    + split; [reflexivity|]. intros n. rewrite H5. destruct (underscored attrs n); reflexivity.
  - destruct (attr_loop_bad _ _ _ El) as [H1 H2]. right. split; [intros [Hc _]; contradiction|].
    eexists; split; [exact Hp | exact H2].
Qed.

Lemma c26_critical v attrs n x : lists_attrs v attrs -> In (n, x) attrs ->
  ~ In n [L "addr"; L "prefer-encrypt"; L "keydata"] -> startswith (L "_") n = false -> rejected v.
Proof.
  intros Hv Hin H1 H2. destruct (c26_meaning _ _ Hv) as [[[HF _] _]|[_ H]]; [|exact H].
  exfalso. rewrite Forall_forall in HF. specialize (HF _ Hin). unfold acceptable in HF. cbn [fst snd] in HF. cbn [In] in H1.
  destruct HF as [[H _]|[[H _]|[H|[r H]]]]; subst; try (apply H1; auto; fail). discriminate H2.
Qed.

(** two header values that say the same, up to further attributes *)
Definition same_statement (v w : text) : Prop :=
  (rejected v /\ rejected w) \/
  (exists a k p ex ex', states v a k p ex /\ states w a k p ex').

Lemma last_value_app n l1 l2 : last_value n (l1 ++ l2) = or_else (last_value n l2) (last_value n l1).
Proof.
  induction l1 as [|[k v] l1 IH]; cbn [app last_value].
  - destruct (last_value n l2); reflexivity.
  - rewrite IH. destruct (last_value n l2); reflexivity.
Qed.

Lemma last_value_skip n l1 l2 u x : u <> n -> last_value n (l1 ++ (u, x) :: l2) = last_value n (l1 ++ l2).
Proof.
  intros H. rewrite !last_value_app. cbn [last_value].
  destruct (text_eqb_spec u n); [congruence|]. destruct (last_value n l2); reflexivity.
Qed.

Lemma c26_underscore v w l1 u x l2 : startswith (L "_") u = true ->
  lists_attrs v (l1 ++ l2) -> lists_attrs w (l1 ++ (u, x) :: l2) ->
  (rejected v /\ rejected w) \/
  (exists a k p ex ex', states v a k p ex /\ states w a k p ex' /\ forall n, n <> u -> ex n = ex' n).
Proof.
  intros Hu Hv Hw.
  assert (Ha : acceptable (u, x)).
  { right; right; right. apply startswith_spec in Hu as [r Hr]. exists r. exact Hr. }
  assert (Hne : forall n, startswith (L "_") n = false -> u <> n) by (intros n Hn ->; congruence).
  assert (Hval : valid_attrs (l1 ++ l2) <-> valid_attrs (l1 ++ (u, x) :: l2)).
  { unfold valid_attrs. rewrite !last_value_skip by (apply Hne; reflexivity).
    rewrite !Forall_app. split; intros [[H1 H2] H3]; (split; [split; [assumption|]|assumption]).
    - constructor; assumption.
    - inversion H2; assumption. }
  destruct (c26_meaning _ _ Hv) as [[V1 [a [k [key [A1 [A2 [A3 A4]]]]]]]|[V1 R1]];
  destruct (c26_meaning _ _ Hw) as [[V2 [a' [k' [key' [B1 [B2 [B3 B4]]]]]]]|[V2 R2]]; try tauto.
  right. rewrite last_value_skip in B1, B2 by (apply Hne; reflexivity).
  assert (a' = a) by congruence. assert (k' = k) by congruence. subst a' k'.
  assert (key' = key) by congruence. subst key'.
  assert (Hpr : pref_stated (l1 ++ (u, x) :: l2) = pref_stated (l1 ++ l2)).
  { unfold pref_stated. rewrite last_value_skip by (apply Hne; reflexivity). reflexivity. }
  rewrite Hpr in B4. exists (norm a), key, (pref_stated (l1 ++ l2)). do 2 eexists. split; [exact A4|]. split; [exact B4|].
  intros n Hn. unfold underscored. destruct (startswith (L "_") n); [|reflexivity].
  rewrite last_value_skip by congruence. reflexivity.
Qed.

Lemma last_value_In n l v : last_value n l = Some v -> In (n, v) l.
Proof.
  induction l as [|[k w] l IH]; cbn [last_value]; [discriminate|].
  destruct (last_value n l) as [z|].
  - intros [= ->]. right; auto.
  - destruct (text_eqb_spec k n) as [->|]; [intros [= ->]; left; reflexivity | discriminate].
Qed.
Lemma last_value_nodup n l v : NoDup (map fst l) -> In (n, v) l -> last_value n l = Some v.
Proof.
  induction l as [|[k w] l IH]; cbn [map last_value fst]; [contradiction|]. intros Hd [Hin|Hin]; inversion Hd as [|? ? Hk Hd']; subst.
  - injection Hin as -> ->. destruct (last_value n l) as [z|] eqn:Ez.
    + exfalso. apply Hk. apply last_value_In in Ez. apply (in_map fst) in Ez. exact Ez.
    + rewrite text_eqb_refl. reflexivity.
  - rewrite (IH Hd' Hin). reflexivity.
Qed.
Lemma last_value_perm n l l' : NoDup (map fst l) -> Permutation l l' -> last_value n l = last_value n l'.
Proof.
  intros Hd Hp. assert (Hd' : NoDup (map fst l')) by (eapply Permutation_NoDup; [apply Permutation_map, Hp | exact Hd]).
  destruct (last_value n l) as [v|] eqn:E1.
  - symmetry. apply last_value_nodup; [exact Hd'|]. eapply Permutation_in; [exact Hp|]. apply last_value_In, E1.
  - destruct (last_value n l') as [v|] eqn:E2; [|reflexivity].
    apply last_value_In in E2. eapply Permutation_in in E2; [|apply Permutation_sym, Hp].
    rewrite (last_value_nodup _ _ _ Hd E2) in E1. discriminate.
Qed.

Lemma c26_order v w l l' : NoDup (map fst l) -> Permutation l l' -> lists_attrs v l -> lists_attrs w l' ->
  (rejected v /\ rejected w) \/ (exists a k p ex, states v a k p ex /\ states w a k p ex).
Proof.
  intros Hd Hp Hv Hw.
  assert (Hval : valid_attrs l <-> valid_attrs l').
  { unfold valid_attrs. rewrite !(last_value_perm _ _ _ Hd Hp).
    split; intros [H1 H2]; (split; [|exact H2]); rewrite Forall_forall in *; intros x Hx; apply H1;
      eapply Permutation_in; try eassumption. apply Permutation_sym, Hp. }
  destruct (c26_meaning _ _ Hv) as [[V1 [a [k [key [A1 [A2 [A3 A4]]]]]]]|[V1 R1]];
  destruct (c26_meaning _ _ Hw) as [[V2 [a' [k' [key' [B1 [B2 [B3 B4]]]]]]]|[V2 R2]]; try tauto.
  right. rewrite <- (last_value_perm _ _ _ Hd Hp) in B1. rewrite <- (last_value_perm _ _ _ Hd Hp) in B2.
  assert (a' = a) by congruence. assert (k' = k) by congruence. subst a' k'.
  assert (key' = key) by congruence. subst key'.
  unfold pref_stated in *. rewrite <- (last_value_perm _ _ _ Hd Hp) in B4.
  exists (norm a), key. do 2 eexists. split; [exact A4|].
  destruct B4 as [p [ex [P1 [P2 [P3 [P4 [P5 [P6 P7]]]]]]]]. exists p, ex. do 6 (split; [assumption|]).
  intros n. rewrite P7. unfold underscored. rewrite (last_value_perm _ _ _ Hd Hp). reflexivity.
Qed.

(** ** C27 *)
Lemma chunks_ok n s : (0 < n)%nat -> forall fuel, (length s <= fuel)%nat ->
  concat (chunks fuel n s) = s /\ Forall (fun c => c <> [] /\ (length c <= n)%nat) (chunks fuel n s) /\
  (forall l c d r, chunks fuel n s = l ++ c :: d :: r -> length c = n).
Proof.
  intros Hn fuel; revert s; induction fuel as [|f IH]; intros s Hl.
  - destruct s; [|simpl in Hl; lia]. cbn. split; [reflexivity|]. split; [constructor|].
    intros l c d r H. destruct l; discriminate H.
  - destruct s as [|x s].
    + cbn. split; [reflexivity|]. split; [constructor|]. intros l c d r H. destruct l; discriminate H.
    + cbn [chunks]. set (s' := x :: s) in *.
      assert (Hs : (length (skipn n s') <= f)%nat).
      { rewrite skipn_length. unfold s' in *. cbn [length] in *. lia. }
      destruct (IH _ Hs) as [I1 [I2 I3]]. split; [|split].
      * cbn [concat]. rewrite I1. apply firstn_skipn.
      * constructor; [|exact I2]. split; [|apply firstn_le_length].
        unfold s'. destruct n; [lia|]. discriminate.
      * intros l c d r H. destruct l as [|y l].
        -- injection H as Hc Hr. subst c. rewrite firstn_length. destruct (skipn n s') as [|z t] eqn:Ez.
           { destruct f; discriminate Hr. }
           apply (f_equal (@length N)) in Ez. rewrite skipn_length in Ez. cbn [length] in Ez. lia.
        -- injection H as _ Hr. eapply I3, Hr.
Qed.

Lemma rstrip_lines (ls : list text) : Forall (fun c => c <> [] /\ Forall b64ish c) ls ->
  rstrip (concat (map (fun l => L "  " ++ l ++ [10%N]) ls)) = join [10%N] (map (fun l => L "  " ++ l) ls).
Proof.
  induction ls as [|c ls IH]; intros HF; [reflexivity|].
  inversion HF as [|? ? [Hc Hb] HF']; subst. cbn [map concat].
  destruct ls as [|d ls].
  - cbn [map concat join]. rewrite app_nil_r.
    replace (L "  " ++ c ++ [10%N]) with ((L "  " ++ c) ++ [10%N]) by (rewrite <- app_assoc; reflexivity).
    rewrite rstrip_app_space by reflexivity.
    unfold rstrip. rewrite lstrip_id; [apply rev_involutive|].
    rewrite rev_app_distr. destruct (rev c) as [|y r] eqn:Er.
    { apply (f_equal (@rev N)) in Er. rewrite rev_involutive in Er. contradiction. }
    cbn [app]. rewrite Forall_forall in Hb. apply (Hb y). apply in_rev. rewrite Er. left; reflexivity.
  - specialize (IH HF').
    change (join [10%N] ((L "  " ++ c) :: map (fun l => L "  " ++ l) (d :: ls)))
      with ((L "  " ++ c) ++ [10%N] ++ join [10%N] (map (fun l => L "  " ++ l) (d :: ls))).
    rewrite <- IH.
    set (q := concat (map (fun l => L "  " ++ l ++ [10%N]) (d :: ls))) in *.
    assert (Hq : rstrip q <> []).
    { rewrite IH. cbn [map]. destruct (map (fun l => L "  " ++ l) ls); discriminate. }
    destruct (rstrip_spec q) as [w [Hw1 Hw2]].
    assert (Hlast : match rev (rstrip q) with [] => False | y :: _ => is_space y = false end).
    { unfold rstrip in *. rewrite rev_involutive. pose proof (lstrip_head (rev q)) as Hh.
      destruct (lstrip (rev q)); [apply Hq; reflexivity | exact Hh]. }
    rewrite Hw1 at 1. rewrite !app_assoc, rstrip_app_space by exact Hw2.
    unfold rstrip at 1. rewrite rev_app_distr. destruct (rev (rstrip q)) as [|y r] eqn:Er; [contradiction|].
    rewrite lstrip_id by exact Hlast. rewrite <- Er, <- rev_app_distr, rev_involutive.
    reflexivity.
Qed.

Lemma chunk_in n s fuel c x : In c (chunks fuel n s) -> In x c -> In x s.
Proof.
  revert s; induction fuel as [|f IH]; intros s Hc Hx; [contradiction|].
  destruct s as [|y s]; [contradiction|]. cbn [chunks] in Hc. destruct Hc as [<-|Hc].
  - rewrite <- (firstn_skipn n (y :: s)). apply in_or_app. left; exact Hx.
  - rewrite <- (firstn_skipn n (y :: s)). apply in_or_app. right. eapply IH; eassumption.
Qed.

Lemma indented_split_lines key : is_bytes key = true -> exists lines,
  indented_split (b64encode key) = Ok (join [10%N] (map (fun l => L "  " ++ l) lines)) /\
  concat lines = b64encode key /\ Forall (fun l => l <> [] /\ (length l <= 78)%nat) lines /\
  Forall (Forall b64ish) lines /\
  (forall l c d r, lines = l ++ c :: d :: r -> length c = 78%nat).
Proof.
  intros Hb. pose proof (b64encode_ish key Hb) as Hish.
  destruct (chunks_ok 78 (b64encode key) ltac:(lia) (length (b64encode key)) (Nat.le_refl _)) as [C1 [C2 C3]].
  exists (chunks (length (b64encode key)) 78 (b64encode key)).
  assert (C4 : Forall (Forall b64ish) (chunks (length (b64encode key)) 78 (b64encode key))).
  { apply Forall_forall. intros c Hc. apply Forall_forall. intros x Hx. rewrite Forall_forall in Hish.
    apply Hish. eapply chunk_in; eassumption. }
  split; [|repeat split; assumption]. unfold indented_split.
  destruct (existsb (N.eqb 10) (b64encode key)) eqn:Ex.
  { exfalso. apply existsb_exists in Ex as [x [Hx1 Hx2]]. apply N.eqb_eq in Hx2. rewrite Forall_forall in Hish.
    destruct (Hish x Hx1) as [_ [_ [_ Hc]]]. congruence. }
  rewrite rstrip_lines; [reflexivity|].
  rewrite Forall_forall in *. intros c Hc. split; [apply (C2 c Hc) | apply C4, Hc].
Qed.

Definition pref_part (pref : text) : text :=
  if text_eqb pref (L "nopreference") then [] else L "prefer-encrypt=" ++ pref ++ L "; ".

Lemma make_value addr key pref : is_bytes key = true -> key <> [] -> exists lines,
  make_ac_header_value addr key pref = Ok (L "addr=" ++ norm addr ++ L "; " ++ pref_part pref ++ L "keydata=" ++ [10%N] ++ join [10%N] (map (fun l => L "  " ++ l) lines)) /\
  concat lines = b64encode key /\ Forall (fun l => l <> [] /\ (length l <= 78)%nat) lines /\
  Forall (Forall b64ish) lines /\
  (forall l c d r, lines = l ++ c :: d :: r -> length c = 78%nat).
Proof.
  intros Hb Hne. destruct (indented_split_lines key Hb) as [lines [H1 H2]]. exists lines. split; [|exact H2].
  unfold make_ac_header_value. destruct (nonempty key) eqn:En; [|destruct key; [congruence | discriminate]].
  rewrite H1. cbn [rbind]. unfold pref_part. destruct (text_eqb pref (L "nopreference")); cbn [app join];
    rewrite <- !app_assoc; reflexivity.
Qed.

Lemma c27 addr key pref v : is_bytes key = true -> make_ac_header_value addr key pref = Ok v ->
  exists before lines, v = before ++ L "keydata=" ++ [10%N] ++ join [10%N] (map (fun l => L "  " ++ l) lines) /\
    concat lines = b64encode key /\
    (forall l, In l lines -> l <> [] /\ (length (L "  " ++ l) <= 80)%nat /\ forall c, In c l -> is_space c = false) /\
    (forall l c d r, lines = l ++ c :: d :: r -> length (L "  " ++ c) = 80%nat).
Proof.
  intros Hb Hm.
  assert (Hne : key <> []) by (intros ->; discriminate Hm).
  destruct (make_value addr key pref Hb Hne) as [lines [H1 [H2 [H3 [H4 H5]]]]].
  rewrite H1 in Hm. injection Hm as <-.
  exists (L "addr=" ++ norm addr ++ L "; " ++ pref_part pref), lines.
  split; [rewrite <- !app_assoc; reflexivity|]. split; [exact H2|]. split.
  - intros l Hl. rewrite Forall_forall in H3, H4. destruct (H3 l Hl) as [A B]. split; [exact A|].
    split; [rewrite app_length; cbn [length]; change (length (L "  ")) with 2%nat; lia|].
    intros c Hc. specialize (H4 l Hl). rewrite Forall_forall in H4. apply (H4 c Hc).
  - intros l c d r Hl. rewrite app_length, (H5 _ _ _ _ Hl). reflexivity.
Qed.

(** ** C24 *)
Lemma no_spaces_lines lines : Forall (Forall b64ish) lines ->
  no_spaces (join [10%N] (map (fun l => L "  " ++ l) lines)) = concat lines.
Proof.
  induction lines as [|c lines IH]; intros HF; [reflexivity|]. inversion HF as [|? ? Hc HF']; subst.
  assert (Hns : no_spaces c = c).
  { clear - Hc. induction c as [|x c IH]; [reflexivity|]. inversion Hc as [|? ? [Hx _] Hc']; subst.
    unfold no_spaces. cbn [filter]. rewrite Hx. cbn [negb]. f_equal. apply IH, Hc'. }
  destruct lines as [|d lines].
  - cbn [map join concat]. rewrite no_spaces_app, Hns, app_nil_r. reflexivity.
  - change (join [10%N] (map (fun l => L "  " ++ l) (c :: d :: lines)))
      with ((L "  " ++ c) ++ [10%N] ++ join [10%N] (map (fun l => L "  " ++ l) (d :: lines))).
    rewrite !no_spaces_app, Hns, (IH HF'). reflexivity.
Qed.

Lemma lines_no_semi lines : Forall (Forall b64ish) lines -> ~ In 59%N (join [10%N] (map (fun l => L "  " ++ l) lines)).
Proof.
  induction lines as [|c lines IH]; intros HF; [intros []|]. inversion HF as [|? ? Hc HF']; subst.
  assert (Hns : ~ In 59%N (L "  " ++ c)).
  { intros Hi. apply in_app_or in Hi as [[Hi|[Hi|[]]]|Hi]; try discriminate Hi.
    rewrite Forall_forall in Hc. destruct (Hc _ Hi) as [_ [_ [H _]]]. congruence. }
  destruct lines as [|d lines]; [exact Hns|].
  change (join [10%N] (map (fun l => L "  " ++ l) (c :: d :: lines)))
    with ((L "  " ++ c) ++ [10%N] ++ join [10%N] (map (fun l => L "  " ++ l) (d :: lines))).
  intros Hi. apply in_app_or in Hi as [Hi|Hi]; [contradiction|].
  apply in_app_or in Hi as [[Hi|[]]|Hi]; [discriminate Hi|]. exact (IH HF' Hi).
Qed.

Lemma segment_strip lead n raw : blank lead -> n <> [] -> trimmed n -> ~ In 61%N n -> ~ In 59%N n -> ~ In 59%N raw ->
  segment_of (lead ++ n ++ L "=" ++ raw) n (strip raw).
Proof.
  intros Hl Hn Ht N1 N2 N3. destruct (strip_spec raw) as [w1 [w2 [Hr [B1 B2]]]].
  exists lead, [], w1, w2. split; [rewrite Hr at 1; reflexivity|].
  do 4 (split; [assumption || (intros ? [])|]). split; [exact Hn|]. split; [exact Ht|]. split; [apply strip_trimmed|].
  split; [exact N1|]. split; [exact N2|]. intros Hi. apply N3. rewrite Hr. apply in_or_app. right. apply in_or_app. left; exact Hi.
Qed.

Lemma trimmed_name (s : text) : forallb (fun c => negb (is_space c)) s = true -> trimmed s.
Proof.
  rewrite forallb_forall. intros H. split; intros c r Hs; apply negb_true_iff, H; subst s.
  - left; reflexivity.
  - apply in_or_app; right; left; reflexivity.
Qed.

Ltac name_ok := first [ discriminate | apply trimmed_name; reflexivity | (intros Hi; repeat destruct Hi as [Hi|Hi]; try discriminate Hi; contradiction) ].
Lemma blank_nil : blank []. Proof. intros ? []. Qed.
Lemma blank_space : blank (L " "). Proof. intros ? [<-|[]]; reflexivity. Qed.

Lemma value_attrs addr key pref : is_bytes key = true -> key <> [] -> ~ In 59%N (norm addr) -> ~ In 59%N pref ->
  exists v k, make_ac_header_value addr key pref = Ok v /\ no_spaces k = b64encode key /\
    lists_attrs v ((L "addr", strip (norm addr))
                   :: (if text_eqb pref (L "nopreference") then [] else [(L "prefer-encrypt", strip pref)])
                   ++ [(L "keydata", k)]).
Proof.
  intros Hb Hne Ha Hp. destruct (make_value addr key pref Hb Hne) as [lines [H1 [H2 [H3 [H4 H5]]]]].
  set (raw := [10%N] ++ join [10%N] (map (fun l => L "  " ++ l) lines)) in *.
  assert (Hraw : ~ In 59%N raw).
  { unfold raw. intros Hi. apply in_app_or in Hi as [[Hi|[]]|Hi]; [discriminate Hi|]. exact (lines_no_semi _ H4 Hi). }
  eexists. exists (strip raw). split; [exact H1|]. split.
  { rewrite no_spaces_strip. unfold raw. rewrite no_spaces_app, (no_spaces_lines _ H4). exact H2. }
  pose proof (segment_strip [] (L "addr") (norm addr) blank_nil ltac:(name_ok) ltac:(name_ok) ltac:(name_ok) ltac:(name_ok) Ha) as S1.
  pose proof (segment_strip (L " ") (L "prefer-encrypt") pref blank_space ltac:(name_ok) ltac:(name_ok) ltac:(name_ok) ltac:(name_ok) Hp) as S2.
  pose proof (segment_strip (L " ") (L "keydata") raw blank_space ltac:(name_ok) ltac:(name_ok) ltac:(name_ok) ltac:(name_ok) Hraw) as S3.
  unfold pref_part. destruct (text_eqb pref (L "nopreference")).
  - exists [L "addr=" ++ norm addr; L " keydata=" ++ raw]. split.
    + apply seg_attr; [exact S1|]. cbn [app]. apply seg_attr; [exact S3|]. constructor.
    + cbn [join app]. rewrite <- ?app_assoc. reflexivity.
  - exists [L "addr=" ++ norm addr; L " prefer-encrypt=" ++ pref; L " keydata=" ++ raw]. split.
    + apply seg_attr; [exact S1|]. cbn [app]. apply seg_attr; [exact S2|]. apply seg_attr; [exact S3|]. constructor.
    + cbn [join app]. rewrite <- ?app_assoc. reflexivity.
Qed.

Lemma c24 addr key pref : is_bytes key = true -> key <> [] ->
  ~ In 59%N (norm addr) -> norm (strip (norm addr)) = norm addr ->
  pref = L "nopreference" \/ pref = L "mutual" ->
  exists v, make_ac_header_value addr key pref = Ok v /\
    parse_ac_headervalue v = Ok (PAH (Some key) (Some (norm addr)) (Some pref) (Some []) None).
Proof.
  intros Hb Hne Ha Hn Hp.
  assert (Hps : ~ In 59%N pref) by (destruct Hp as [->| ->]; name_ok).
  destruct (value_attrs addr key pref Hb Hne Ha Hps) as [v [k [H1 [H2 H3]]]]. exists v. split; [exact H1|].
  rewrite (parse_attrs _ _ H3). f_equal.
  destruct Hp as [->| ->]; cbn [text_eqb app attr_loop].
  - change (if text_eqb (L "nopreference") (L "nopreference") then [] else [(L "prefer-encrypt", strip (L "nopreference"))]) with (@nil (text*text)).
    cbn [app attr_loop]. change (attr_step start (L "addr", strip (norm addr))) with (@inl hstate pah (HS None (L "nopreference") (Some (norm (strip (norm addr)))) [])).
    cbn iota. unfold attr_step. change (text_eqb (L "keydata") (L "keydata")) with true. cbn iota.
    rewrite H2, b64_roundtrip by exact Hb. cbn [conclude h_kd h_pref h_addr h_extra]. rewrite Hn. reflexivity.
  - change (if text_eqb (L "mutual") (L "nopreference") then [] else [(L "prefer-encrypt", strip (L "mutual"))]) with [(L "prefer-encrypt", L "mutual")].
    cbn [app attr_loop]. change (attr_step start (L "addr", strip (norm addr))) with (@inl hstate pah (HS None (L "nopreference") (Some (norm (strip (norm addr)))) [])).
    cbn iota. change (attr_step (HS None (L "nopreference") (Some (norm (strip (norm addr)))) []) (L "prefer-encrypt", L "mutual")) with (@inl hstate pah (HS None (L "mutual") (Some (norm (strip (norm addr)))) [])).
    cbn iota. unfold attr_step. change (text_eqb (L "keydata") (L "keydata")) with true. cbn iota.
    rewrite H2, b64_roundtrip by exact Hb. cbn [conclude h_kd h_pref h_addr h_extra]. rewrite Hn. reflexivity.
Qed.

Lemma c24_other addr key pref : is_bytes key = true -> key <> [] ->
  ~ In 59%N (norm addr) -> ~ In 59%N pref ->
  strip pref <> L "nopreference" -> strip pref <> L "mutual" ->
  exists v, make_ac_header_value addr key pref = Ok v /\ rejected v.
Proof.
  intros Hb Hne Ha Hps P1 P2.
  destruct (value_attrs addr key pref Hb Hne Ha Hps) as [v [k [H1 [H2 H3]]]]. exists v. split; [exact H1|].
  destruct (c26_meaning _ _ H3) as [[[HF _] _]|[_ H]]; [|exact H]. exfalso.
  destruct (text_eqb_spec pref (L "nopreference")) as [->|Hq]; [apply P1; reflexivity|].
  rewrite Forall_forall in HF. specialize (HF (L "prefer-encrypt", strip pref) ltac:(right; left; reflexivity)).
  destruct HF as [[Hc _]|[[_ [Hc|Hc]]|[Hc|[r Hc]]]]; cbn [fst snd] in Hc; try discriminate Hc; contradiction.
Qed.

(** ** C25 *)
Lemma ac_step_raises st x e : ac_step st x = Err e -> exists w r, x = w ++ 61%N :: r /\ blank w.
Proof.
  unfold ac_step. destruct (split_max 61 1 x) as [|k [|v [|z l]]] eqn:Es; try discriminate. cbv zeta.
  destruct (text_eqb (strip k) (L "keydata")); [destruct (b64decode _); discriminate|].
  destruct (text_eqb (strip k) (L "prefer-encrypt")); [destruct (mem_text _ _); discriminate|].
  destruct (text_eqb (strip k) (L "addr")); [discriminate|].
  destruct (strip k) as [|c n] eqn:Ek; [|destruct (N.eqb c 95); discriminate]. intros _.
  exists k, v. split.
  - clear Ek. revert k Es; induction x as [|c x IH]; intros k Es; [discriminate Es|].
    cbn [split_max] in Es. destruct (N.eqb_spec c 61) as [->|Hc].
    + injection Es as <- Hx. destruct x; injection Hx as <-; reflexivity.
    + destruct (split_max 61 1 x) as [|p ps] eqn:Ex; [discriminate Es|]. injection Es as <- ->.
      rewrite (IH p eq_refl). reflexivity.
  - destruct (strip_spec k) as [w1 [w2 [Hk [B1 B2]]]]. rewrite Ek in Hk. cbn [app] in Hk. rewrite Hk.
    intros c Hc. apply in_app_or in Hc as [Hc|Hc]; auto.
Qed.

Lemma ac_loop_raises parts st e : ac_loop st parts = Err e -> exists x w r, In x parts /\ x = w ++ 61%N :: r /\ blank w.
Proof.
  revert st; induction parts as [|x parts IH]; intros st; cbn [ac_loop]; [discriminate|].
  destruct (ac_step st x) as [[st'|p]|e'] eqn:Es; intros H.
  - destruct (IH _ H) as [y [w [r [Hy Hr]]]]. exists y, w, r. split; [right; exact Hy | exact Hr].
  - discriminate.
  - destruct (ac_step_raises _ _ _ Es) as [w [r Hr]]. exists x, w, r. split; [left; reflexivity | exact Hr].
Qed.

Lemma join_cut (c : N) l1 p l2 : exists l r, join [c] (l1 ++ p :: l2) = l ++ p ++ r /\ (l = [] \/ exists l', l = l' ++ [c]).
Proof.
  induction l1 as [|x l1 IH].
  - exists []. destruct l2 as [|y l2]; cbn [app join].
    + exists []. rewrite app_nil_r. auto.
    + exists ([c] ++ join [c] (y :: l2)). auto.
  - destruct IH as [l [r [H1 H2]]]. exists (x ++ [c] ++ l), r. split.
    + cbn [app join]. destruct (l1 ++ p :: l2) eqn:E'; [destruct l1; discriminate|]. rewrite H1. rewrite <- !app_assoc. reflexivity.
    + right. destruct H2 as [->|[l' ->]]; [exists x; rewrite app_nil_r; reflexivity|].
      exists (x ++ [c] ++ l'). rewrite <- !app_assoc. reflexivity.
Qed.

Lemma split_on_in c s p : In p (split_on c s) -> exists l r, s = l ++ p ++ r /\ (l = [] \/ exists l', l = l' ++ [c]).
Proof.
  intros Hp. apply in_split in Hp as [l1 [l2 Hs]]. rewrite <- (join_split_on c s), Hs. apply join_cut.
Qed.

Lemma c25_raises v e : parse_ac_headervalue v = Err e ->
  e = IndexError /\ exists l w r, v = l ++ w ++ 61%N :: r /\ blank w /\ (l = [] \/ exists l', l = l' ++ [59%N]).
Proof.
  unfold parse_ac_headervalue. cbv zeta. intros H. split.
  - destruct (ac_loop _ _) as [[st|p]|e'] eqn:El; cbn [rbind] in H.
    + destruct (h_kd st); [destruct (h_addr st)|]; discriminate.
    + discriminate.
    + injection H as ->. clear - El. revert El. generalize (HS None (L "nopreference") None []).
      induction (filter nonempty (map strip (split_on 59 v))) as [|x l IH]; intros st; cbn [ac_loop]; [discriminate|].
      destruct (ac_step st x) as [[st'|p]|e'] eqn:Es; [apply IH | discriminate|]. intros [= ->]. revert Es.
      unfold ac_step. destruct (split_max 61 1 x) as [|k [|u [|z m]]]; try discriminate. cbv zeta.
      destruct (text_eqb (strip k) (L "keydata")); [destruct (b64decode _); discriminate|].
      destruct (text_eqb (strip k) (L "prefer-encrypt")); [destruct (mem_text _ _); discriminate|].
      destruct (text_eqb (strip k) (L "addr")); [discriminate|].
      destruct (strip k) as [|c n]; [congruence|destruct (N.eqb c 95); discriminate].
  - destruct (ac_loop _ _) as [[st|p]|e'] eqn:El; cbn [rbind] in H.
    + destruct (h_kd st); [destruct (h_addr st)|]; discriminate.
    + discriminate.
    + destruct (ac_loop_raises _ _ _ El) as [x [w [r [Hx [Hr Hw]]]]].
      apply filter_In in Hx as [Hx _]. apply in_map_iff in Hx as [y [Hy Hin]].
      destruct (split_on_in _ _ _ Hin) as [l [t [Hv Hl]]].
      destruct (strip_spec y) as [w1 [w2 [Hy2 [B1 B2]]]].
      exists l, (w1 ++ w), (r ++ w2 ++ t). split; [|split].
      * rewrite Hv, Hy2, Hy, Hr. rewrite <- !app_assoc. reflexivity.
      * intros c Hc. apply in_app_or in Hc as [Hc|Hc]; auto.
      * exact Hl.
Qed.

Lemma c25 v : (forall l w r, v = l ++ w ++ 61%N :: r -> blank w -> ~ (l = [] \/ exists l', l = l' ++ [59%N])) ->
  exists p, parse_ac_headervalue v = Ok p.
Proof.
  intros H. destruct (parse_ac_headervalue v) as [p|e] eqn:Ep; [eauto|]. exfalso.
  destruct (c25_raises _ _ Ep) as [_ [l [w [r [Hv [Hw Hl]]]]]]. exact (H l w r Hv Hw Hl).
Qed.

(** ** C28 *)
Lemma c28 b s : is_bytes b = true -> no_spaces s = b64encode b -> b64decode (join [] (split_ws s)) = Ok b.
Proof. intros Hb Hs. rewrite join_split_ws. fold (no_spaces s). rewrite Hs. apply b64_roundtrip, Hb. Qed.

Lemma c28_header v attrs k b : is_bytes b = true -> lists_attrs v attrs -> valid_attrs attrs ->
  last_value (L "keydata") attrs = Some k -> no_spaces k = b64encode b ->
  exists p, parse_ac_headervalue v = Ok p /\ has_error p = false /\ p_keydata p = Some b.
Proof.
  intros Hb Hv Hval Hk Hs. destruct (c26_meaning _ _ Hv) as [[_ [a [k' [key [_ [H2 [H3 H4]]]]]]]|[H _]]; [|contradiction].
  assert (k' = k) by congruence. subst k'. rewrite Hs, b64_roundtrip in H3 by exact Hb. injection H3 as <-.
  destruct H4 as [p [ex [P1 [P2 [_ [P4 _]]]]]]. exists p. auto.
Qed.

(** also without removing white space first, as the decoder skips it *)
Lemma b64_data_ish c : b64_data c = true -> is_ascii_cp c = true.
Proof.
  unfold b64_data. destruct (N.eqb_spec c b64pad) as [->|H]; [reflexivity|]. cbn [orb].
  destruct (b64val c) eqn:Ev; [|discriminate]. intros _. unfold b64val in Ev. unfold is_ascii_cp. apply N.ltb_lt.
  destruct ((65 <=? c) && (c <=? 90))%N eqn:E1; [rewrite andb_true_iff, !N.leb_le in E1; lia|].
  destruct ((97 <=? c) && (c <=? 122))%N eqn:E2; [rewrite andb_true_iff, !N.leb_le in E2; lia|].
  destruct ((48 <=? c) && (c <=? 57))%N eqn:E3; [rewrite andb_true_iff, !N.leb_le in E3; lia|].
  destruct (N.eqb_spec c 43) as [->|]; [lia|]. destruct (N.eqb_spec c 47) as [->|]; [lia|]. discriminate.
Qed.

Lemma c28_injective a b : is_bytes a = true -> is_bytes b = true -> b64encode a = b64encode b -> a = b.
Proof.
  intros Ha Hb H. apply b64_roundtrip in Ha, Hb. rewrite H in Ha. congruence.
Qed.

End Meaning.
