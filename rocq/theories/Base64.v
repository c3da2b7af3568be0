(** base64.b64encode and base64.b64decode (non-strict, CPython 3.11
    Modules/binascii.c [binascii_a2b_base64_impl]), which /repo/muacrypt/mime.py uses at
    lines 31 (decode_keydata) and 55 (make_ac_header_value). *)
From Verif Require Import Base PyStr.
Open Scope N_scope.

(** value (0..63) -> alphabet character *)
Definition b64char (v : N) : N :=
  if v <? 26 then v + 65
  else if v <? 52 then v + 71
  else if v <? 62 then v - 4
  else if v =? 62 then 43 else 47.

(** alphabet character -> value; other characters (including '=') are not data *)
Definition b64val (c : N) : option N :=
  if (65 <=? c) && (c <=? 90) then Some (c - 65)
  else if (97 <=? c) && (c <=? 122) then Some (c - 71)
  else if (48 <=? c) && (c <=? 57) then Some (c + 4)
  else if c =? 43 then Some 62
  else if c =? 47 then Some 63
  else None.

Definition b64pad : N := 61.

(** base64.b64encode *)
Fixpoint b64encode (b : bytes) : text :=
  match b with
  | [] => []
  | [x] => [b64char (x / 4); b64char (x mod 4 * 16); b64pad; b64pad]
  | [x; y] => [b64char (x / 4); b64char (x mod 4 * 16 + y / 16); b64char (y mod 16 * 4); b64pad]
  | x :: y :: z :: b' =>
    b64char (x / 4) :: b64char (x mod 4 * 16 + y / 16) ::
    b64char (y mod 16 * 4 + z / 64) :: b64char (z mod 64) :: b64encode b'
  end.

(** State of the C loop: quad_pos, leftchar, pads.  Returns None for binascii.Error. *)
Fixpoint a2b (s : text) (quad : nat) (left : N) (pads : nat) : option bytes :=
  match s with
  | [] => match quad with O => Some [] | _ => None end
  | c :: s' =>
    if c =? b64pad then
      if (2 <=? quad)%nat then
        if (4 <=? quad + S pads)%nat then Some []
        else a2b s' quad left (S pads)
      else a2b s' quad left pads
    else
      match b64val c with
      | None => a2b s' quad left pads
      | Some v =>
        match quad with
        | O => a2b s' 1 v 0
        | 1%nat => option_map (cons (left * 4 + v / 16)) (a2b s' 2 (v mod 16) 0)
        | 2%nat => option_map (cons (left * 16 + v / 4)) (a2b s' 3 (v mod 4) 0)
        | _ => option_map (cons (left * 64 + v)) (a2b s' 0 0 0)
        end
      end
  end.

(** base64.b64decode(str): the argument is first encoded as ASCII (ValueError otherwise). *)
Definition b64decode (s : text) : result bytes :=
  if is_ascii s then
    match a2b s 0 0 0 with Some b => Ok b | None => Err ValueError end
  else Err ValueError.

(** * Lemmas *)

Definition all_b64 : list N := map N.of_nat (seq 0 64).

Lemma in_all_b64 v : v < 64 -> In v all_b64.
Proof.
  intros H. unfold all_b64. apply in_map_iff. exists (N.to_nat v). split.
  - apply N2Nat.id.
  - apply in_seq. lia.
Qed.

Lemma b64_table_ok :
  forallb (fun v => match b64val (b64char v) with Some w => w =? v | None => false end
                    && negb (b64char v =? b64pad) && negb (is_space (b64char v))
                    && is_ascii_cp (b64char v) && negb (b64char v =? 59)
                    && negb (b64char v =? 10)) all_b64 = true.
Proof. vm_compute. reflexivity. Qed.

Lemma b64char_facts v : v < 64 ->
  b64val (b64char v) = Some v /\ b64char v <> b64pad /\ is_space (b64char v) = false
  /\ is_ascii_cp (b64char v) = true /\ b64char v <> 59 /\ b64char v <> 10.
Proof.
  intros H. pose proof b64_table_ok as T. rewrite forallb_forall in T.
  specialize (T v (in_all_b64 v H)).
  rewrite !andb_true_iff, !negb_true_iff in T.
  destruct T as [[[[[T1 T2] T3] T4] T5] T6].
  destruct (b64val (b64char v)) as [w|]; [|discriminate].
  apply N.eqb_eq in T1. apply N.eqb_neq in T2, T5, T6. subst w. repeat split; auto.
Qed.

Lemma a2b_char s v quad left pads : v < 64 ->
  a2b (b64char v :: s) quad left pads =
  match quad with
  | O => a2b s 1 v 0
  | 1%nat => option_map (cons (left * 4 + v / 16)) (a2b s 2 (v mod 16) 0)
  | 2%nat => option_map (cons (left * 16 + v / 4)) (a2b s 3 (v mod 4) 0)
  | _ => option_map (cons (left * 64 + v)) (a2b s 0 0 0)
  end.
Proof.
  intros H. destruct (b64char_facts v H) as [H1 [H2 _]].
  cbn [a2b]. apply N.eqb_neq in H2. rewrite H2, H1. reflexivity.
Qed.

Ltac dm := Z.to_euclidean_division_equations; lia.

Lemma div4_lt x : x < 256 -> x / 4 < 64.
Proof. intros. apply N.div_lt_upper_bound; lia. Qed.
Lemma mod_lt' a b : b <> 0 -> a mod b < b.
Proof. apply N.mod_lt. Qed.

Lemma b64_q2 x y : x < 256 -> y < 256 -> x mod 4 * 16 + y / 16 < 64.
Proof.
  intros. pose proof (mod_lt' x 4 ltac:(lia)).
  assert (y / 16 < 16) by (apply N.div_lt_upper_bound; lia). lia.
Qed.
Lemma b64_q3 y z : y < 256 -> z < 256 -> y mod 16 * 4 + z / 64 < 64.
Proof.
  intros. pose proof (mod_lt' y 16 ltac:(lia)).
  assert (z / 64 < 4) by (apply N.div_lt_upper_bound; lia). lia.
Qed.

Lemma rec1 x y : x < 256 -> y < 256 ->
  x / 4 * 4 + (x mod 4 * 16 + y / 16) / 16 = x /\ (x mod 4 * 16 + y / 16) mod 16 = y / 16.
Proof.
  intros Hx Hy.
  assert (y / 16 < 16) by (apply N.div_lt_upper_bound; lia).
  rewrite N.div_add_l by lia. rewrite (N.div_small (y/16) 16) by assumption.
  rewrite N.add_comm with (n := x mod 4 * 16). rewrite N.mod_add by lia.
  rewrite (N.mod_small (y / 16) 16) by assumption. split; [|reflexivity].
  pose proof (N.div_mod x 4). lia.
Qed.

Lemma rec2 y z : y < 256 -> z < 256 ->
  y / 16 * 16 + (y mod 16 * 4 + z / 64) / 4 = y /\ (y mod 16 * 4 + z / 64) mod 4 = z / 64.
Proof.
  intros Hx Hy.
  assert (z / 64 < 4) by (apply N.div_lt_upper_bound; lia).
  rewrite N.div_add_l by lia. rewrite (N.div_small (z/64) 4) by assumption.
  rewrite N.add_comm with (n := y mod 16 * 4). rewrite N.mod_add by lia.
  rewrite (N.mod_small (z / 64) 4) by assumption. split; [|reflexivity].
  pose proof (N.div_mod y 16). lia.
Qed.

Lemma rec3 z : z / 64 * 64 + z mod 64 = z.
Proof. pose proof (N.div_mod z 64). lia. Qed.

(** Induction three bytes at a time. *)
Lemma bytes3_ind (P : bytes -> Prop) :
  P [] -> (forall x, P [x]) -> (forall x y, P [x; y]) ->
  (forall x y z b, P b -> P (x :: y :: z :: b)) -> forall b, P b.
Proof.
  intros H0 H1 H2 H3 b.
  assert (H : P b /\ (forall x, P (x :: b)) /\ (forall x y, P (x :: y :: b))).
  { induction b as [|c b [IH1 [IH2 IH3]]]; repeat split; auto. }
  tauto.
Qed.

Lemma a2b_encode b s : is_bytes b = true -> Nat.modulo (length b) 3 = 0%nat \/ s = [] ->
  a2b (b64encode b ++ s) 0 0 0 = if Nat.eqb (Nat.modulo (length b) 3) 0 then option_map (app b) (a2b s 0 0 0) else Some b.
Proof.
  intros Hb. revert s. revert b Hb.
  apply (bytes3_ind (fun b => is_bytes b = true -> forall s, Nat.modulo (length b) 3 = 0%nat \/ s = [] ->
    a2b (b64encode b ++ s) 0 0 0 = if Nat.eqb (Nat.modulo (length b) 3) 0 then option_map (app b) (a2b s 0 0 0) else Some b)).
  - intros _ s _. simpl. destruct (a2b s 0 0 0); reflexivity.
  - intros x Hx s [Hs|Hs]; [discriminate|subst s].
    unfold is_bytes in Hx; simpl in Hx; rewrite andb_true_r in Hx. apply N.ltb_lt in Hx.
    rewrite app_nil_r. cbn [b64encode].
    pose proof (div4_lt x Hx) as Q1.
    pose proof (b64_q2 x 0 Hx ltac:(lia)) as Q2. rewrite N.div_0_l, N.add_0_r in Q2 by lia.
    rewrite a2b_char by assumption. rewrite a2b_char by assumption.
    destruct (rec1 x 0 Hx ltac:(lia)) as [R1 R2]. rewrite N.div_0_l, N.add_0_r in R1, R2 by lia.
    rewrite R1. reflexivity.
  - intros x y Hxy s [Hs|Hs]; [discriminate|subst s].
    unfold is_bytes in Hxy; simpl in Hxy; rewrite andb_true_r, andb_true_iff in Hxy.
    destruct Hxy as [Hx Hy]. apply N.ltb_lt in Hx, Hy.
    rewrite app_nil_r. cbn [b64encode].
    pose proof (div4_lt x Hx) as Q1.
    pose proof (b64_q2 x y Hx Hy) as Q2.
    pose proof (b64_q3 y 0 Hy ltac:(lia)) as Q3. rewrite N.div_0_l, N.add_0_r in Q3 by lia.
    rewrite a2b_char by assumption. rewrite a2b_char by assumption. rewrite a2b_char by assumption.
    destruct (rec1 x y Hx Hy) as [R1 R2].
    destruct (rec2 y 0 Hy ltac:(lia)) as [R3 R4]. rewrite N.div_0_l, N.add_0_r in R3, R4 by lia.
    rewrite R1, R2, R3. reflexivity.
  - intros x y z b IH Hb s Hs.
    unfold is_bytes in Hb; cbn [forallb] in Hb; rewrite !andb_true_iff in Hb.
    destruct Hb as [Hx [Hy [Hz Hb]]]. apply N.ltb_lt in Hx, Hy, Hz.
    assert (Hm : (Nat.modulo (length (x :: y :: z :: b)) 3 = Nat.modulo (length b) 3)%nat).
    { replace (length (x :: y :: z :: b)) with (length b + 1 * 3)%nat by (simpl; lia).
      apply Nat.mod_add. lia. }
    rewrite Hm in *. specialize (IH Hb s Hs).
    cbn [b64encode app].
    rewrite a2b_char by (apply div4_lt; assumption).
    rewrite a2b_char by (apply b64_q2; assumption).
    rewrite a2b_char by (apply b64_q3; assumption).
    rewrite a2b_char by (apply mod_lt'; lia).
    destruct (rec1 x y Hx Hy) as [R1 R2]. destruct (rec2 y z Hy Hz) as [R3 R4].
    rewrite R1, R2, R3, R4, rec3, IH.
    destruct (Nat.eqb (Nat.modulo (length b) 3) 0); [|reflexivity].
    destruct (a2b s 0 0 0); reflexivity.
Qed.

(** All characters of an encoding are data characters or '='. *)
Definition b64ish (c : N) : Prop := is_space c = false /\ is_ascii_cp c = true /\ c <> 59 /\ c <> 10.

Lemma b64pad_ish : b64ish b64pad.
Proof. repeat split; try reflexivity; intro H; discriminate H. Qed.
Lemma b64char_ish v : v < 64 -> b64ish (b64char v).
Proof. intros H. destruct (b64char_facts v H) as [_ [_ [A [B [C D]]]]]. repeat split; assumption. Qed.

Lemma b64encode_ish b : is_bytes b = true -> Forall b64ish (b64encode b).
Proof.
  revert b. apply (bytes3_ind (fun b => is_bytes b = true -> Forall b64ish (b64encode b))).
  - constructor.
  - intros x Hx. unfold is_bytes in Hx; simpl in Hx; rewrite andb_true_r in Hx. apply N.ltb_lt in Hx.
    pose proof (b64_q2 x 0 Hx ltac:(lia)) as Q2. rewrite N.div_0_l, N.add_0_r in Q2 by lia.
    cbn [b64encode]. repeat constructor; try apply b64pad_ish; apply b64char_ish; auto using div4_lt.
  - intros x y Hxy. unfold is_bytes in Hxy; simpl in Hxy; rewrite andb_true_r, andb_true_iff in Hxy.
    destruct Hxy as [Hx Hy]. apply N.ltb_lt in Hx, Hy.
    pose proof (b64_q3 y 0 Hy ltac:(lia)) as Q3. rewrite N.div_0_l, N.add_0_r in Q3 by lia.
    cbn [b64encode]. constructor; [apply b64char_ish, div4_lt; auto|].
    constructor; [apply b64char_ish, b64_q2; auto|].
    constructor; [apply b64char_ish; auto|].
    constructor; [apply b64pad_ish|constructor].
  - intros x y z b IH Hb.
    unfold is_bytes in Hb; cbn [forallb] in Hb; rewrite !andb_true_iff in Hb.
    destruct Hb as [Hx [Hy [Hz Hb]]]. apply N.ltb_lt in Hx, Hy, Hz.
    cbn [b64encode]. constructor; [apply b64char_ish, div4_lt; auto|].
    constructor; [apply b64char_ish, b64_q2; auto|].
    constructor; [apply b64char_ish, b64_q3; auto|].
    constructor; [apply b64char_ish, mod_lt'; lia|auto].
Qed.

Lemma b64encode_ascii b : is_bytes b = true -> is_ascii (b64encode b) = true.
Proof.
  intros H. unfold is_ascii. apply forallb_forall. intros c Hc.
  pose proof (b64encode_ish b H) as F. rewrite Forall_forall in F. apply (F c Hc).
Qed.

Lemma b64_roundtrip b : is_bytes b = true -> b64decode (b64encode b) = Ok b.
Proof.
  intros H. unfold b64decode. rewrite b64encode_ascii by assumption.
  pose proof (a2b_encode b [] H (or_intror eq_refl)) as E. rewrite app_nil_r in E. rewrite E.
  destruct (Nat.eqb (Nat.modulo (length b) 3) 0); cbn [a2b option_map]; [rewrite app_nil_r|]; reflexivity.
Qed.

Lemma b64encode_nil b : b64encode b = [] -> b = [].
Proof. destruct b as [|x [|y [|z b]]]; simpl; try discriminate; auto. Qed.

(** The decoder ignores every character outside the alphabet. *)
Definition b64_data (c : N) : bool := (c =? b64pad) || match b64val c with Some _ => true | None => false end.

Lemma a2b_filter s quad left pads : a2b (filter b64_data s) quad left pads = a2b s quad left pads.
Proof.
  revert quad left pads; induction s as [|c s IH]; intros; [reflexivity|].
  cbn [filter]. unfold b64_data at 1.
  destruct (c =? b64pad) eqn:E; cbn [orb].
  - cbn [a2b]. rewrite E. rewrite !IH. reflexivity.
  - destruct (b64val c) as [v|] eqn:Ev.
    + cbn [a2b]. rewrite E, Ev. rewrite !IH. reflexivity.
    + rewrite IH. cbn [a2b]. rewrite E, Ev. reflexivity.
Qed.

(** Decoded data are bytes. *)
Lemma b64val_lt c v : b64val c = Some v -> v < 64.
Proof.
  unfold b64val.
  destruct ((65 <=? c) && (c <=? 90)) eqn:E1; [rewrite andb_true_iff, !N.leb_le in E1; intros [= <-]; lia|].
  destruct ((97 <=? c) && (c <=? 122)) eqn:E2; [rewrite andb_true_iff, !N.leb_le in E2; intros [= <-]; lia|].
  destruct ((48 <=? c) && (c <=? 57)) eqn:E3; [rewrite andb_true_iff, !N.leb_le in E3; intros [= <-]; lia|].
  destruct (c =? 43); [intros [= <-]; lia|].
  destruct (c =? 47); [intros [= <-]; lia|]. discriminate.
Qed.

Lemma a2b_bytes s quad left pads b :
  (quad = 1%nat -> left < 64) -> (quad = 2%nat -> left < 16) -> ((3 <= quad)%nat -> left < 4) ->
  a2b s quad left pads = Some b -> is_bytes b = true.
Proof.
  revert quad left pads b; induction s as [|c s IH]; intros quad left pads b H1 H2 H3 H; cbn [a2b] in H.
  - destruct quad; [injection H as <-; reflexivity | discriminate].
  - destruct (c =? b64pad).
    + destruct (Nat.leb 2 quad) eqn:Eq; [|eapply IH; eauto].
      destruct (Nat.leb 4 (quad + S pads)); [injection H as <-; reflexivity | eapply IH; eauto].
    + destruct (b64val c) as [v|] eqn:Ev; [|eapply IH; eauto].
      apply b64val_lt in Ev.
      destruct quad as [|[|[|q]]].
      * eapply IH in H; auto; intros; lia.
      * destruct (a2b s 2 (v mod 16) 0) eqn:Er; [|discriminate]. injection H as <-.
        assert (v / 16 < 4) by (apply N.div_lt_upper_bound; lia).
        unfold is_bytes. simpl. apply andb_true_iff. split; [apply N.ltb_lt; specialize (H1 eq_refl); lia|].
        eapply IH in Er; auto; intros; try lia. apply mod_lt'; lia.
      * destruct (a2b s 3 (v mod 4) 0) eqn:Er; [|discriminate]. injection H as <-.
        assert (v / 4 < 16) by (apply N.div_lt_upper_bound; lia).
        unfold is_bytes. simpl. apply andb_true_iff. split; [apply N.ltb_lt; specialize (H2 eq_refl); lia|].
        eapply IH in Er; auto; intros; try lia. apply mod_lt'; lia.
      * destruct (a2b s 0 0 0) eqn:Er; [|discriminate]. injection H as <-.
        unfold is_bytes. simpl. apply andb_true_iff. split; [apply N.ltb_lt; specialize (H3 ltac:(lia)); lia|].
        eapply IH in Er; auto; intros; lia.
Qed.

Lemma b64decode_bytes s b : b64decode s = Ok b -> is_bytes b = true.
Proof.
  unfold b64decode. destruct (is_ascii s); [|discriminate].
  destruct (a2b s 0 0 0) eqn:E; [|discriminate]. intros [= <-].
  eapply a2b_bytes in E; auto; intros; lia.
Qed.
