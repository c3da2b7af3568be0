(** Python string functions used by /repo, on lists of code points.
    Reference: CPython 3.11 semantics of str.split, str.strip, str.join, str.splitlines,
    str.isspace, slicing.  Case conversion is in Env.v because it needs the Unicode tables. *)
From Verif Require Import Base.


(** str.isspace for one code point (complete table for Unicode 14/15). *)
Definition is_space (c : N) : bool :=
  (N.leb 9 c && N.leb c 13) || (N.leb 28 c && N.leb c 32) || N.eqb c 133 || N.eqb c 160
  || N.eqb c 5760 || (N.leb 8192 c && N.leb c 8202) || N.eqb c 8232 || N.eqb c 8233
  || N.eqb c 8239 || N.eqb c 8287 || N.eqb c 12288.

(** str.lstrip(), str.rstrip(), str.strip() without argument *)
Fixpoint lstrip (s : text) : text :=
  match s with
  | [] => []
  | c :: s' => if is_space c then lstrip s' else s
  end.
Definition rstrip (s : text) : text := rev (lstrip (rev s)).
Definition strip (s : text) : text := rstrip (lstrip s).

(** s.split(c) for a one-character separator *)
Fixpoint split_on (c : N) (s : text) : list text :=
  match s with
  | [] => [[]]
  | x :: s' =>
    if N.eqb x c then [] :: split_on c s'
    else match split_on c s' with
         | [] => [[x]]
         | p :: ps => (x :: p) :: ps
         end
  end.

(** s.split(c, n): at most n splits *)
Fixpoint split_max (c : N) (n : nat) (s : text) {struct s} : list text :=
  match n with
  | O => [s]
  | S n' =>
    match s with
    | [] => [[]]
    | x :: s' =>
      if N.eqb x c then [] :: split_max c n' s'
      else match split_max c n s' with
           | [] => [[x]]
           | p :: ps => (x :: p) :: ps
           end
    end
  end.

(** sep.join(l) *)
Fixpoint join (sep : text) (l : list text) : text :=
  match l with
  | [] => []
  | [x] => x
  | x :: l' => x ++ sep ++ join sep l'
  end.

(** s.split() : split at runs of white space, no empty pieces.  [acc] is the current word, reversed. *)
Fixpoint split_ws_aux (acc : text) (s : text) : list text :=
  match s with
  | [] => match acc with [] => [] | _ => [rev acc] end
  | x :: s' =>
    if is_space x then
      match acc with [] => split_ws_aux [] s' | _ => rev acc :: split_ws_aux [] s' end
    else split_ws_aux (x :: acc) s'
  end.
Definition split_ws (s : text) : list text := split_ws_aux [] s.

(** s.startswith(p) *)
Fixpoint startswith (p s : text) : bool :=
  match p, s with
  | [], _ => true
  | x :: p', y :: s' => N.eqb x y && startswith p' s'
  | _ :: _, [] => false
  end.

(** ** bytes.decode("utf-8") and str.encode("utf-8"): well-formed sequences as in table 3-7 of
    the Unicode standard (no overlong forms, no surrogates); None = UnicodeError *)
Definition between (a c b : N) : bool := N.leb a c && N.leb c b.
Definition tail_byte (c : N) : bool := between 128 c 191.
Fixpoint utf8 (b : bytes) : option text :=
  match b with
  | [] => Some []
  | c :: r =>
    if N.leb c 127 then option_map (cons c) (utf8 r)
    else if between 194 c 223 then
      match r with
      | c1 :: r1 => if tail_byte c1 then option_map (cons ((c - 192) * 64 + (c1 - 128))%N) (utf8 r1) else None
      | [] => None
      end
    else if between 224 c 239 then
      match r with
      | c1 :: c2 :: r2 =>
        if between (if N.eqb c 224 then 160 else 128) c1 (if N.eqb c 237 then 159 else 191) && tail_byte c2
        then option_map (cons ((c - 224) * 4096 + (c1 - 128) * 64 + (c2 - 128))%N) (utf8 r2) else None
      | _ => None
      end
    else if between 240 c 244 then
      match r with
      | c1 :: c2 :: c3 :: r3 =>
        if between (if N.eqb c 240 then 144 else 128) c1 (if N.eqb c 244 then 143 else 191) && tail_byte c2 && tail_byte c3
        then option_map (cons ((c - 240) * 262144 + (c1 - 128) * 4096 + (c2 - 128) * 64 + (c3 - 128))%N) (utf8 r3) else None
      | _ => None
      end
    else None
  end.
Definition utf8_cp (c : N) : option bytes :=
  if N.leb c 127 then Some [c]
  else if N.leb c 2047 then Some [192 + c / 64; 128 + c mod 64]%N
  else if between 55296 c 57343 then None
  else if N.leb c 65535 then Some [224 + c / 4096; 128 + c / 64 mod 64; 128 + c mod 64]%N
  else if N.leb c 1114111 then Some [240 + c / 262144; 128 + c / 4096 mod 64; 128 + c / 64 mod 64; 128 + c mod 64]%N
  else None.
Fixpoint to_utf8 (t : text) : option bytes :=
  match t with
  | [] => Some []
  | c :: t' => match utf8_cp c, to_utf8 t' with Some b, Some r => Some (b ++ r) | _, _ => None end
  end.

Definition encode_utf8 (t : text) : result bytes := match to_utf8 t with Some b => Ok b | None => Err UnicodeError end.

(** p in s *)
Fixpoint contains (p s : text) : bool :=
  startswith p s || match s with [] => false | _ :: s' => contains p s' end.

(** s[-i:] for i >= 0; note that s[-0:] is the whole string *)
Definition suffix_slice (i : nat) (s : text) : text :=
  match i with O => s | _ => skipn (List.length s - i) s end.

(** str.splitlines(): line boundaries are LF CR CRLF VT FF FS GS RS NEL U+2028 U+2029 *)
Definition is_linebreak (c : N) : bool :=
  (N.leb 10 c && N.leb c 13) || (N.leb 28 c && N.leb c 30) || N.eqb c 133 || N.eqb c 8232 || N.eqb c 8233.

Fixpoint splitlines_aux (acc : text) (s : text) : list text :=
  match s with
  | [] => match acc with [] => [] | _ => [rev acc] end
  | x :: s' =>
    if is_linebreak x then
      match s' with
      | y :: s'' => if N.eqb x 13 && N.eqb y 10 then rev acc :: splitlines_aux [] s''
                    else rev acc :: splitlines_aux [] s'
      | [] => [rev acc]
      end
    else splitlines_aux (x :: acc) s'
  end.
Definition splitlines (s : text) : list text := splitlines_aux [] s.

(** Lexicographic order of code points, sorted() on lists of text *)
Fixpoint text_leb (a b : text) : bool :=
  match a, b with
  | [], _ => true
  | _ :: _, [] => false
  | x :: a', y :: b' => N.ltb x y || (N.eqb x y && text_leb a' b')
  end.
Fixpoint insert_text (x : text) (l : list text) : list text :=
  match l with
  | [] => [x]
  | y :: l' => if text_leb x y then x :: l else y :: insert_text x l'
  end.
Definition sorted (l : list text) : list text := fold_right insert_text [] l.

(** ASCII case conversion *)
Definition ascii_lower_cp (c : N) : N := if N.leb 65 c && N.leb c 90 then (c + 32)%N else c.
Definition is_ascii_cp (c : N) : bool := N.ltb c 128.
Definition is_ascii (s : text) : bool := forallb is_ascii_cp s.
Definition ascii_alnum_cp (c : N) : bool :=
  (N.leb 48 c && N.leb c 57) || (N.leb 65 c && N.leb c 90) || (N.leb 97 c && N.leb c 122).

(** decimal rendering of a natural number, "{}".format(n) *)
Fixpoint dec_aux (fuel : nat) (n : N) (acc : text) : text :=
  match fuel with
  | O => acc
  | S f =>
    let d := (48 + n mod 10)%N in
    if N.eqb (n / 10) 0 then d :: acc else dec_aux f (n / 10) (d :: acc)
  end.
Definition dec_N (n : N) : text := dec_aux (S (N.to_nat (N.size n))) n [].

(** * Lemmas *)

Lemma split_on_nonnil c s : split_on c s <> [].
Proof. destruct s as [|x s]; simpl; [discriminate|]. destruct (N.eqb x c); [discriminate|]. destruct (split_on c s); discriminate. Qed.

Lemma split_on_no c s : (forall x, In x s -> x <> c) -> split_on c s = [s].
Proof.
  induction s as [|x s IH]; simpl; intros H; [reflexivity|].
  destruct (N.eqb_spec x c) as [->|Hne]; [exfalso; apply (H c); auto|].
  rewrite IH by (intros y Hy; apply H; auto). reflexivity.
Qed.

Lemma split_on_app c a b : (forall x, In x a -> x <> c) -> split_on c (a ++ c :: b) = a :: split_on c b.
Proof.
  induction a as [|x a IH]; simpl; intros H.
  - rewrite N.eqb_refl; reflexivity.
  - destruct (N.eqb_spec x c) as [->|Hne]; [exfalso; apply (H c); auto|].
    rewrite IH by (intros y Hy; apply H; auto). reflexivity.
Qed.

Lemma join_split_on c s : join [c] (split_on c s) = s.
Proof.
  induction s as [|x s IH]; simpl; [reflexivity|].
  destruct (N.eqb_spec x c) as [->|Hne].
  - simpl. destruct (split_on c s) eqn:E; [exfalso; exact (split_on_nonnil _ _ E)|].
    rewrite <- IH. reflexivity.
  - destruct (split_on c s) as [|p ps] eqn:E; [exfalso; exact (split_on_nonnil _ _ E)|].
    destruct ps; simpl in *; rewrite <- IH; reflexivity.
Qed.

Lemma split_on_parts c s : Forall (fun p => ~ In c p) (split_on c s).
Proof.
  induction s as [|x s IH]; simpl; [constructor; [simpl; tauto | constructor]|].
  destruct (N.eqb_spec x c) as [->|Hne].
  - constructor; [simpl; tauto | exact IH].
  - destruct (split_on c s) as [|p ps]; inversion IH; subst; constructor; simpl; auto;
      intros [Hc|Hc]; congruence || contradiction.
Qed.

Lemma split_max_nonnil c n s : split_max c n s <> [].
Proof.
  revert n; induction s as [|x s IH]; intros [|n]; simpl; try discriminate.
  destruct (N.eqb x c); [discriminate|]. destruct (split_max c (S n) s); discriminate.
Qed.

Lemma split_max_no c n s : (forall x, In x s -> x <> c) -> split_max c n s = [s].
Proof.
  revert n; induction s as [|x s IH]; intros [|n] H; simpl; try reflexivity.
  destruct (N.eqb_spec x c) as [->|Hne]; [exfalso; apply (H c); simpl; auto|].
  rewrite IH by (intros y Hy; apply H; simpl; auto). reflexivity.
Qed.

Lemma split_max_app c n a b : (forall x, In x a -> x <> c) ->
  split_max c (S n) (a ++ c :: b) = a :: split_max c n b.
Proof.
  induction a as [|x a IH]; intros H; simpl.
  - rewrite N.eqb_refl. reflexivity.
  - destruct (N.eqb_spec x c) as [->|Hne]; [exfalso; apply (H c); simpl; auto|].
    simpl in IH. rewrite IH by (intros y Hy; apply H; simpl; auto). reflexivity.
Qed.

Lemma lstrip_spec s : exists w, s = w ++ lstrip s /\ forallb is_space w = true.
Proof.
  induction s as [|c s IH]; simpl; [exists []; auto|].
  destruct (is_space c) eqn:E.
  - destruct IH as [w [H1 H2]]. exists (c :: w). simpl. rewrite E, H2. rewrite <- H1. auto.
  - exists []; auto.
Qed.

Lemma lstrip_head s : match lstrip s with [] => True | c :: _ => is_space c = false end.
Proof. induction s as [|c s IH]; simpl; [exact I|]. destruct (is_space c) eqn:E; auto. Qed.

Lemma lstrip_id s : match s with [] => True | c :: _ => is_space c = false end -> lstrip s = s.
Proof. destruct s as [|c s]; simpl; [reflexivity|]. intros ->; reflexivity. Qed.

Lemma lstrip_idem s : lstrip (lstrip s) = lstrip s.
Proof. apply lstrip_id, lstrip_head. Qed.

Lemma lstrip_app_space w s : forallb is_space w = true -> lstrip (w ++ s) = lstrip s.
Proof.
  induction w as [|c w IH]; simpl; [reflexivity|].
  rewrite andb_true_iff. intros [-> H]. auto.
Qed.

Lemma rstrip_app_space w s : forallb is_space w = true -> rstrip (s ++ w) = rstrip s.
Proof.
  intros H. unfold rstrip. rewrite rev_app_distr, lstrip_app_space; [reflexivity|].
  rewrite forallb_forall in *. intros x Hx. apply H. apply in_rev. exact Hx.
Qed.

Definition stripped (s : text) : bool :=
  match s with [] => true | c :: _ => negb (is_space c) end &&
  match rev s with [] => true | c :: _ => negb (is_space c) end.

Lemma strip_id s : stripped s = true -> strip s = s.
Proof.
  unfold stripped, strip. rewrite andb_true_iff. intros [H1 H2].
  rewrite lstrip_id.
  - unfold rstrip. rewrite lstrip_id, rev_involutive; [reflexivity|].
    destruct (rev s); [exact I | apply negb_true_iff; exact H2].
  - destruct s; [exact I | apply negb_true_iff; exact H1].
Qed.

Lemma strip_space_l w s : forallb is_space w = true -> strip (w ++ s) = strip s.
Proof. intros H. unfold strip. rewrite lstrip_app_space; auto. Qed.

Lemma lstrip_app_ns s w : match lstrip s with [] => False | _ => True end -> lstrip (s ++ w) = lstrip s ++ w.
Proof.
  induction s as [|c s IH]; simpl; [tauto|].
  destruct (is_space c); simpl; auto.
Qed.

Lemma lstrip_all_space s : lstrip s = [] -> forallb is_space s = true.
Proof.
  induction s as [|c s IH]; simpl; [auto|]. destruct (is_space c); [auto | discriminate].
Qed.
Lemma lstrip_all_space' s : forallb is_space s = true -> lstrip s = [].
Proof.
  induction s as [|c s IH]; simpl; [auto|]. destruct (is_space c); [auto | discriminate].
Qed.

Lemma strip_space_r w s : forallb is_space w = true -> strip (s ++ w) = strip s.
Proof.
  intros H. unfold strip. destruct (lstrip s) eqn:E.
  - apply lstrip_all_space in E.
    rewrite (lstrip_all_space' (s ++ w)); [reflexivity|].
    rewrite forallb_app, E, H; reflexivity.
  - rewrite lstrip_app_ns by (rewrite E; exact I). rewrite E.
    apply rstrip_app_space; assumption.
Qed.

Lemma split_ws_aux_concat acc s :
  forallb (fun c => negb (is_space c)) acc = true ->
  concat (split_ws_aux acc s) = rev acc ++ filter (fun c => negb (is_space c)) s.
Proof.
  revert acc; induction s as [|x s IH]; intros acc Hacc; simpl.
  - destruct acc; simpl; [reflexivity|]. rewrite !app_nil_r. reflexivity.
  - destruct (is_space x) eqn:E; simpl.
    + destruct acc; [rewrite IH by reflexivity; reflexivity|].
      cbn [concat]. rewrite IH by reflexivity. reflexivity.
    + rewrite IH; [|simpl; rewrite E, Hacc; reflexivity]. simpl. rewrite <- app_assoc. reflexivity.
Qed.

Lemma join_nil_concat l : join [] l = concat l.
Proof. induction l as [|x [|y l] IH]; simpl in *; [reflexivity | rewrite app_nil_r; reflexivity | rewrite IH; reflexivity]. Qed.

(** "".join(s.split()) removes exactly the white space. *)
Lemma join_split_ws s : join [] (split_ws s) = filter (fun c => negb (is_space c)) s.
Proof. rewrite join_nil_concat. unfold split_ws. rewrite split_ws_aux_concat; reflexivity. Qed.

Lemma startswith_app p s : startswith p (p ++ s) = true.
Proof. induction p; simpl; [reflexivity|]. rewrite N.eqb_refl; assumption. Qed.

Lemma startswith_spec p s : startswith p s = true <-> exists r, s = p ++ r.
Proof.
  revert s; induction p as [|x p IH]; intros s; simpl.
  - split; [intros _; exists s; reflexivity | reflexivity].
  - destruct s as [|y s]; [split; [discriminate | intros [r Hr]; discriminate]|].
    rewrite andb_true_iff, N.eqb_eq, IH. split.
    + intros [-> [r ->]]; exists r; reflexivity.
    + intros [r Hr]; injection Hr; intros; subst; eauto.
Qed.

(** sorted is a permutation and is ordered *)
From Coq Require Import Permutation Sorted.

Lemma insert_text_perm x l : Permutation (x :: l) (insert_text x l).
Proof.
  induction l as [|y l IH]; simpl; [reflexivity|].
  destruct (text_leb x y); [reflexivity|].
  rewrite perm_swap. constructor. exact IH.
Qed.

Lemma sorted_perm l : Permutation l (sorted l).
Proof.
  induction l as [|x l IH]; simpl; [reflexivity|].
  rewrite <- insert_text_perm. constructor. exact IH.
Qed.

Lemma sorted_In x l : In x (sorted l) <-> In x l.
Proof. split; apply Permutation_in; [symmetry|]; apply sorted_perm. Qed.

Lemma text_leb_total a b : text_leb a b = false -> text_leb b a = true.
Proof.
  revert b; induction a as [|x a IH]; intros [|y b]; simpl; try discriminate; auto.
  rewrite orb_false_iff, andb_false_iff, orb_true_iff, andb_true_iff.
  intros [H1 [H2|H2]].
  - left. apply N.ltb_ge in H1. apply N.eqb_neq in H2. apply N.ltb_lt. lia.
  - apply N.ltb_ge in H1. destruct (N.eq_dec x y) as [->|Hn].
    + right. split; [apply N.eqb_refl | auto].
    + left. apply N.ltb_lt. lia.
Qed.

Lemma text_leb_trans a b c : text_leb a b = true -> text_leb b c = true -> text_leb a c = true.
Proof.
  revert b c; induction a as [|x a IH]; intros [|y b] [|z c]; simpl; try discriminate; auto.
  rewrite !orb_true_iff, !andb_true_iff, !N.ltb_lt, !N.eqb_eq.
  intros [H1|[H1 H1']] [H2|[H2 H2']]; try (left; lia).
  right. split; [congruence | eauto].
Qed.

Lemma text_leb_antisym a b : text_leb a b = true -> text_leb b a = true -> a = b.
Proof.
  revert b; induction a as [|x a IH]; intros [|y b]; simpl; try discriminate; auto.
  rewrite !orb_true_iff, !andb_true_iff, !N.ltb_lt, !N.eqb_eq.
  intros [H1|[H1 H1']] [H2|[H2 H2']]; try lia. subst. f_equal; auto.
Qed.

Definition text_le a b := text_leb a b = true.

Lemma insert_text_sorted x l : StronglySorted text_le l -> StronglySorted text_le (insert_text x l).
Proof.
  induction l as [|y l IH]; intros H; simpl; [constructor; constructor|].
  inversion H as [|? ? Hs Hf]; subst.
  destruct (text_leb x y) eqn:E.
  - constructor; [exact H|]. constructor; [exact E|].
    rewrite Forall_forall in *. intros z Hz. eapply text_leb_trans; [exact E | apply Hf; exact Hz].
  - constructor; [auto|]. apply text_leb_total in E.
    rewrite Forall_forall in *. intros z Hz.
    apply (Permutation_in z (Permutation_sym (insert_text_perm x l))) in Hz.
    destruct Hz as [<-|Hz]; [exact E | auto].
Qed.

Lemma sorted_sorted l : StronglySorted text_le (sorted l).
Proof. induction l as [|x l IH]; simpl; [constructor | apply insert_text_sorted; exact IH]. Qed.
