(** UTF-8: what was encoded decodes to itself, and only that. *)
From Verif Require Import Base PyStr.

Definition byte (c : N) : Prop := (c < 256)%N.
(** a code point that is not a surrogate *)
Definition code_point (c : N) : Prop := (c <= 55295 \/ 57344 <= c <= 1114111)%N.

Local Ltac nz := repeat match goal with
  | H : N.leb _ _ = true |- _ => apply N.leb_le in H
  | H : N.leb _ _ = false |- _ => apply N.leb_gt in H
  | H : N.eqb _ _ = true |- _ => apply N.eqb_eq in H
  | H : N.eqb _ _ = false |- _ => apply N.eqb_neq in H
  | H : _ && _ = true |- _ => apply andb_prop in H; destruct H
  | H : _ && _ = false |- _ => apply andb_false_iff in H
  | H : _ \/ _ |- _ => destruct H
  end.

Lemma between_true a c b : (a <= c <= b)%N -> between a c b = true.
Proof. intros [H1 H2]. unfold between. apply andb_true_intro. split; apply N.leb_le; assumption. Qed.
Lemma between_false a c b : (c < a \/ b < c)%N -> between a c b = false.
Proof. intros [H|H]; unfold between; apply andb_false_iff; [left|right]; apply N.leb_gt; exact H. Qed.
Lemma between_range a c b : between a c b = true -> (a <= c <= b)%N.
Proof. unfold between. intros H. nz. lia. Qed.

Lemma utf8_cp_scalar c : code_point c <-> exists b, utf8_cp c = Some b.
Proof.
  unfold code_point, utf8_cp. split.
  - intros H. destruct (N.leb c 127) eqn:E1; [eauto|]. destruct (N.leb c 2047) eqn:E2; [eauto|].
    destruct (between 55296 c 57343) eqn:E3; [apply between_range in E3; lia|].
    destruct (N.leb c 65535) eqn:E4; [eauto|]. destruct (N.leb c 1114111) eqn:E5; [eauto|]. nz; lia.
  - intros [b H]. destruct (N.leb c 127) eqn:E1; [nz; lia|]. destruct (N.leb c 2047) eqn:E2; [nz; lia|].
    destruct (between 55296 c 57343) eqn:E3; [discriminate|].
    destruct (N.leb c 65535) eqn:E4; [|destruct (N.leb c 1114111) eqn:E5; [|discriminate]]; unfold between in E3; nz; lia.
Qed.

Local Lemma some_inj {A} (a b : A) : Some a = Some b -> a = b.
Proof. congruence. Qed.
Lemma utf8_cp_decode c b r : utf8_cp c = Some b -> utf8 (b ++ r) = option_map (cons c) (utf8 r).
Proof.
  unfold utf8_cp. destruct (N.leb c 127) eqn:E1.
  { intros Hb; apply some_inj in Hb; subst b. cbn [app utf8]. rewrite E1. reflexivity. }
  destruct (N.leb c 2047) eqn:E2.
  { intros Hb; apply some_inj in Hb; subst b. cbn [app utf8]. nz.
    pose proof (N.div_mod c 64 ltac:(lia)) as D. pose proof (N.mod_lt c 64 ltac:(lia)) as M.
    set (q := (c / 64)%N) in *. set (w := (c mod 64)%N) in *.
    replace (N.leb (192 + q) 127) with false by (symmetry; apply N.leb_gt; lia).
    rewrite (between_true 194 (192 + q) 223) by lia. unfold tail_byte. rewrite (between_true 128 (128 + w) 191) by lia.
    replace ((192 + q - 192) * 64 + (128 + w - 128))%N with c by lia. reflexivity. }
  destruct (between 55296 c 57343) eqn:E3; [discriminate|].
  assert (D : (c = 64 * (c / 64) + c mod 64)%N) by (apply N.div_mod; lia).
  assert (M : (c mod 64 < 64)%N) by (apply N.mod_lt; lia).
  assert (D2 : (c / 64 = 64 * (c / 4096) + c / 64 mod 64)%N).
  { replace (c / 4096)%N with (c / 64 / 64)%N by (rewrite N.div_div by lia; reflexivity). apply N.div_mod. lia. }
  assert (M2 : (c / 64 mod 64 < 64)%N) by (apply N.mod_lt; lia).
  assert (D3 : (c / 4096 = 64 * (c / 262144) + c / 4096 mod 64)%N).
  { replace (c / 262144)%N with (c / 4096 / 64)%N by (rewrite N.div_div by lia; reflexivity). apply N.div_mod. lia. }
  assert (M3 : (c / 4096 mod 64 < 64)%N) by (apply N.mod_lt; lia).
  set (w := (c mod 64)%N) in *. set (w2 := (c / 64 mod 64)%N) in *. set (w3 := (c / 4096 mod 64)%N) in *.
  set (q := (c / 4096)%N) in *. set (q3 := (c / 262144)%N) in *.
  destruct (N.leb c 65535) eqn:E4.
  { intros Hb; apply some_inj in Hb; subst b. cbn [app utf8].
    assert (E3' : (c < 55296 \/ 57343 < c)%N) by (unfold between in E3; nz; lia). clear E3. nz;
    (replace (N.leb (224 + q) 127) with false by (symmetry; apply N.leb_gt; lia);
    rewrite (between_false 194 (224 + q) 223) by lia; rewrite (between_true 224 (224 + q) 239) by lia;
    unfold tail_byte; rewrite (between_true 128 (128 + w) 191) by lia;
    rewrite (between_true (if N.eqb (224 + q) 224 then 160 else 128)%N) by
      (destruct (N.eqb (224 + q) 224) eqn:Ea, (N.eqb (224 + q) 237) eqn:Eb; nz; lia);
    replace ((224 + q - 224) * 4096 + (128 + w2 - 128) * 64 + (128 + w - 128))%N with c by lia; reflexivity). }
  destruct (N.leb c 1114111) eqn:E5; [|discriminate].
  intros Hb; apply some_inj in Hb; subst b. cbn [app utf8]. clear E3. nz.
  replace (N.leb (240 + q3) 127) with false by (symmetry; apply N.leb_gt; lia).
  rewrite (between_false 194 (240 + q3) 223) by lia. rewrite (between_false 224 (240 + q3) 239) by lia. rewrite (between_true 240 (240 + q3) 244) by lia.
  unfold tail_byte. rewrite (between_true 128 (128 + w) 191) by lia. rewrite (between_true 128 (128 + w2) 191) by lia.
  rewrite (between_true (if N.eqb (240 + q3) 240 then 144 else 128)%N) by
    (destruct (N.eqb (240 + q3) 240) eqn:Ea, (N.eqb (240 + q3) 244) eqn:Eb; nz; lia).
  replace ((240 + q3 - 240) * 262144 + (128 + w3 - 128) * 4096 + (128 + w2 - 128) * 64 + (128 + w - 128))%N with c by lia. reflexivity.
Qed.

Lemma utf8_roundtrip t b : to_utf8 t = Some b -> utf8 b = Some t.
Proof.
  revert b. induction t as [|c t IH]; intros b H; cbn [to_utf8] in H; [injection H as <-; reflexivity|].
  destruct (utf8_cp c) as [bc|] eqn:Ec; [|discriminate]. destruct (to_utf8 t) as [bt|]; [|discriminate]. injection H as <-.
  rewrite (utf8_cp_decode c bc bt Ec), (IH bt eq_refl). reflexivity.
Qed.

Lemma to_utf8_scalar t : Forall code_point t <-> exists b, to_utf8 t = Some b.
Proof.
  induction t as [|c t IH]; cbn [to_utf8]; [split; eauto|]. split.
  - intros H. inversion H as [|? ? H1 H2]; subst. apply utf8_cp_scalar in H1. destruct H1 as [b ->]. apply IH in H2. destruct H2 as [bt ->]. eauto.
  - intros [b H]. destruct (utf8_cp c) eqn:Ec; [|discriminate]. destruct (to_utf8 t) eqn:Et; [|discriminate].
    constructor; [apply utf8_cp_scalar; eauto|apply IH; eauto].
Qed.

(** the other way: bytes that decode are the encoding of what they decode to *)
Lemma utf8_inverse t b : utf8 b = Some t -> to_utf8 t = Some b.
Proof.
  remember (length b) as n eqn:En. assert (Hn : length b <= n) by lia. clear En. revert t b Hn.
  induction n as [|n IH]; intros t b Hn; (destruct b as [|c r]; [cbn; intros [= <-]; reflexivity|]); [cbn in Hn; lia|].
  cbn [utf8]. cbn [length] in Hn.
  destruct (N.leb c 127) eqn:E1.
  { destruct (utf8 r) as [t'|] eqn:Er; [|discriminate]. intros [= <-]. cbn [to_utf8]. rewrite (IH t' r ltac:(lia) Er). unfold utf8_cp. rewrite E1. reflexivity. }
  apply N.leb_gt in E1.
  destruct (between 194 c 223) eqn:E2.
  { apply between_range in E2. destruct r as [|c1 r]; [discriminate|]. destruct (tail_byte c1) eqn:T1; [|discriminate].
    unfold tail_byte in T1. apply between_range in T1. cbn [length] in Hn.
    destruct (utf8 r) as [t'|] eqn:Er; [|discriminate]. intros [= <-]. cbn [to_utf8]. rewrite (IH t' r ltac:(lia) Er).
    unfold utf8_cp. remember ((c - 192) * 64 + (c1 - 128))%N as d eqn:Ed.
    replace (N.leb d 127) with false by (symmetry; apply N.leb_gt; lia). replace (N.leb d 2047) with true by (symmetry; apply N.leb_le; lia).
    assert (Eq : (d / 64 = c - 192)%N) by (symmetry; apply (N.div_unique d 64 (c - 192) (c1 - 128)); lia).
    assert (Em : (d mod 64 = c1 - 128)%N) by (symmetry; apply (N.mod_unique d 64 (c - 192) (c1 - 128)); lia).
    rewrite Eq, Em. cbn [app]. repeat f_equal; lia. }
  destruct (between 224 c 239) eqn:E3.
  { apply between_range in E3. destruct r as [|c1 [|c2 r]]; try discriminate.
    destruct (between (if N.eqb c 224 then 160 else 128) c1 (if N.eqb c 237 then 159 else 191)) eqn:T1; [|discriminate].
    destruct (tail_byte c2) eqn:T2; [|discriminate]. cbn [andb length] in *.
    apply between_range in T1. unfold tail_byte in T2. apply between_range in T2.
    destruct (utf8 r) as [t'|] eqn:Er; [|discriminate]. intros [= <-]. cbn [to_utf8]. rewrite (IH t' r ltac:(lia) Er).
    unfold utf8_cp. remember ((c - 224) * 4096 + (c1 - 128) * 64 + (c2 - 128))%N as d eqn:Ed.
    assert (R1 : (128 <= c1 <= 191)%N) by (destruct (N.eqb c 224), (N.eqb c 237); lia).
    assert (R2 : (2048 <= d)%N) by (destruct (N.eqb c 224) eqn:Ea, (N.eqb c 237) eqn:Eb; nz; lia).
    assert (R3 : (d < 55296 \/ 57343 < d)%N) by (destruct (N.eqb c 224) eqn:Ea, (N.eqb c 237) eqn:Eb; nz; lia).
    replace (N.leb d 127) with false by (symmetry; apply N.leb_gt; lia). replace (N.leb d 2047) with false by (symmetry; apply N.leb_gt; lia).
    rewrite between_false by exact R3. replace (N.leb d 65535) with true by (symmetry; apply N.leb_le; lia).
    assert (Eq : (d / 64 = (c - 224) * 64 + (c1 - 128))%N) by (symmetry; apply (N.div_unique d 64 _ (c2 - 128)); lia).
    assert (Em : (d mod 64 = c2 - 128)%N) by (symmetry; apply (N.mod_unique d 64 ((c - 224) * 64 + (c1 - 128)) (c2 - 128)); lia).
    assert (Eq2 : (d / 4096 = c - 224)%N) by (symmetry; apply (N.div_unique d 4096 _ ((c1 - 128) * 64 + (c2 - 128))); lia).
    assert (Em2 : (d / 64 mod 64 = c1 - 128)%N) by (rewrite Eq; symmetry; apply (N.mod_unique _ 64 (c - 224) (c1 - 128)); lia).
    rewrite Eq2, Em2, Em. cbn [app]. repeat f_equal; lia. }
  destruct (between 240 c 244) eqn:E4; [|discriminate].
  apply between_range in E4. destruct r as [|c1 [|c2 [|c3 r]]]; try discriminate.
  destruct (between (if N.eqb c 240 then 144 else 128) c1 (if N.eqb c 244 then 143 else 191)) eqn:T1; [|discriminate].
  destruct (tail_byte c2) eqn:T2; [|discriminate]. destruct (tail_byte c3) eqn:T3; [|discriminate]. cbn [andb length] in *.
  apply between_range in T1. unfold tail_byte in T2, T3. apply between_range in T2. apply between_range in T3.
  destruct (utf8 r) as [t'|] eqn:Er; [|discriminate]. intros [= <-]. cbn [to_utf8]. rewrite (IH t' r ltac:(lia) Er).
  unfold utf8_cp. remember ((c - 240) * 262144 + (c1 - 128) * 4096 + (c2 - 128) * 64 + (c3 - 128))%N as d eqn:Ed.
  assert (R1 : (128 <= c1 <= 191)%N) by (destruct (N.eqb c 240), (N.eqb c 244); lia).
  assert (R2 : (65536 <= d <= 1114111)%N) by (destruct (N.eqb c 240) eqn:Ea, (N.eqb c 244) eqn:Eb; nz; lia).
  replace (N.leb d 127) with false by (symmetry; apply N.leb_gt; lia). replace (N.leb d 2047) with false by (symmetry; apply N.leb_gt; lia).
  rewrite between_false by lia. replace (N.leb d 65535) with false by (symmetry; apply N.leb_gt; lia).
  replace (N.leb d 1114111) with true by (symmetry; apply N.leb_le; lia).
  assert (Eq : (d / 64 = (c - 240) * 4096 + (c1 - 128) * 64 + (c2 - 128))%N) by (symmetry; apply (N.div_unique d 64 _ (c3 - 128)); lia).
  assert (Em : (d mod 64 = c3 - 128)%N) by (symmetry; apply (N.mod_unique d 64 ((c - 240) * 4096 + (c1 - 128) * 64 + (c2 - 128)) (c3 - 128)); lia).
  assert (Eq2 : (d / 4096 = (c - 240) * 64 + (c1 - 128))%N) by (symmetry; apply (N.div_unique d 4096 _ ((c2 - 128) * 64 + (c3 - 128))); lia).
  assert (Em2 : (d / 64 mod 64 = c2 - 128)%N) by (rewrite Eq; symmetry; apply (N.mod_unique _ 64 ((c - 240) * 64 + (c1 - 128)) (c2 - 128)); lia).
  assert (Eq3 : (d / 262144 = c - 240)%N) by (symmetry; apply (N.div_unique d 262144 _ ((c1 - 128) * 4096 + (c2 - 128) * 64 + (c3 - 128))); lia).
  assert (Em3 : (d / 4096 mod 64 = c1 - 128)%N) by (rewrite Eq2; symmetry; apply (N.mod_unique _ 64 (c - 240) (c1 - 128)); lia).
  rewrite Eq3, Em3, Em2, Em. cbn [app]. repeat f_equal; lia.
Qed.
