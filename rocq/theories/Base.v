(** Basic vocabulary of the model: Python text and byte strings, exceptions as values,
    Python dictionaries (insertion ordered), and their elementary lemmas.
    Nothing in this file models a particular function of /repo. *)
From Coq Require Export List NArith ZArith Bool Lia.
From Coq Require Ascii String.
Export ListNotations.
Export (notations) String.

(** Text is a list of Unicode code points, bytes a list of numbers < 256 (see [is_bytes]). *)
Definition text := list N.
Definition bytes := list N.
Definition is_byte (b : N) : bool := N.ltb b 256.
Definition is_bytes (b : bytes) : bool := forallb is_byte b.

(** String literals. *)
Definition L (s : String.string) : text := map Ascii.N_of_ascii (String.list_ascii_of_string s).
Arguments L s%string_scope : simpl never.

(** Exceptions that the modelled code can raise.  UnicodeEncodeError is kept apart from
    ValueError although it is a subclass of it; where the code says [except ValueError]
    the model matches both. *)
Inductive exn :=
| AssertionError | ValueError | TypeError | IndexError | AttributeError
| UnicodeError | OverflowError | UnboundLocalError
| InvocationFailure | KeyboardInterrupt
| AccountNotFound | AccountExists
| ClickException
| LoadError            (* execnet: file does not contain a complete dump *)
| ReError              (* invalid regular expression *)
| Diverges             (* the real code would loop forever *)
| OtherError.

Inductive result (A : Type) := Ok (a : A) | Err (e : exn).
Arguments Ok {A} a.
Arguments Err {A} e.

Definition is_ok {A} (r : result A) : bool := match r with Ok _ => true | Err _ => false end.

Definition rbind {A B} (r : result A) (f : A -> result B) : result B :=
  match r with Ok a => f a | Err e => Err e end.

(** * Decidable equality *)

Fixpoint text_eqb (a b : list N) : bool :=
  match a, b with
  | [], [] => true
  | x :: a', y :: b' => N.eqb x y && text_eqb a' b'
  | _, _ => false
  end.

Lemma text_eqb_eq a b : text_eqb a b = true <-> a = b.
Proof.
  revert b; induction a as [|x a IH]; intros [|y b]; simpl; try (split; congruence).
  rewrite andb_true_iff, N.eqb_eq, IH. split.
  - intros [-> ->]; reflexivity.
  - intros H; injection H; auto.
Qed.

Lemma text_eqb_refl a : text_eqb a a = true.
Proof. apply text_eqb_eq; reflexivity. Qed.

Lemma text_eqb_neq a b : text_eqb a b = false <-> a <> b.
Proof.
  rewrite <- not_true_iff_false, text_eqb_eq. tauto.
Qed.

Lemma text_eqb_spec a b : reflect (a = b) (text_eqb a b).
Proof. destruct (text_eqb a b) eqn:E; constructor; [apply text_eqb_eq | apply text_eqb_neq]; assumption. Qed.

Lemma text_eqb_sym a b : text_eqb a b = text_eqb b a.
Proof.
  destruct (text_eqb_spec a b) as [->|H]; symmetry.
  - apply text_eqb_refl.
  - apply text_eqb_neq; congruence.
Qed.

Definition text_eq_dec : forall a b : text, {a = b} + {a <> b} := list_eq_dec N.eq_dec.

Definition mem_text (x : text) (l : list text) : bool := existsb (text_eqb x) l.

Lemma mem_text_In x l : mem_text x l = true <-> In x l.
Proof.
  unfold mem_text. rewrite existsb_exists. split.
  - intros [y [H1 H2]]. apply text_eqb_eq in H2. subst; assumption.
  - intros H; exists x; split; [assumption | apply text_eqb_refl].
Qed.

Lemma mem_text_nIn x l : mem_text x l = false <-> ~ In x l.
Proof. rewrite <- not_true_iff_false, mem_text_In. tauto. Qed.

Definition otext_eqb (a b : option (list N)) : bool :=
  match a, b with
  | None, None => true
  | Some x, Some y => text_eqb x y
  | _, _ => false
  end.

Lemma otext_eqb_eq a b : otext_eqb a b = true <-> a = b.
Proof.
  destruct a, b; simpl; try (split; congruence).
  rewrite text_eqb_eq; split; congruence.
Qed.

(** Python truthiness of a string / bytes. *)
Definition nonempty {A} (l : list A) : bool := match l with [] => false | _ => true end.

Lemma nonempty_true {A} (l : list A) : nonempty l = true <-> l <> [].
Proof. destruct l; simpl; split; congruence. Qed.
Lemma nonempty_false {A} (l : list A) : nonempty l = false <-> l = [].
Proof. destruct l; simpl; split; congruence. Qed.

(** * Python dictionaries with text keys: association lists, insertion ordered,
      assignment to an existing key keeps its position. *)
Definition dict (V : Type) := list (text * V).

Fixpoint dget {V} (d : dict V) (k : text) : option V :=
  match d with
  | [] => None
  | (k', v) :: d' => if text_eqb k k' then Some v else dget d' k
  end.

Fixpoint dset {V} (d : dict V) (k : text) (v : V) : dict V :=
  match d with
  | [] => [(k, v)]
  | (k', v') :: d' => if text_eqb k k' then (k', v) :: d' else (k', v') :: dset d' k v
  end.

Definition dkeys {V} (d : dict V) : list text := map fst d.

Lemma dget_dset_same {V} (d : dict V) k v : dget (dset d k v) k = Some v.
Proof.
  induction d as [|[k' v'] d IH]; simpl.
  - rewrite text_eqb_refl; reflexivity.
  - destruct (text_eqb k k') eqn:E; simpl; rewrite E; [reflexivity | exact IH].
Qed.

Lemma dget_dset_other {V} (d : dict V) k k' v : k' <> k -> dget (dset d k v) k' = dget d k'.
Proof.
  intros Hne. induction d as [|[k0 v0] d IH]; simpl.
  - destruct (text_eqb_spec k' k); congruence.
  - destruct (text_eqb_spec k k0) as [->|H0]; simpl.
    + destruct (text_eqb_spec k' k0); [congruence | reflexivity].
    + destruct (text_eqb k' k0); [reflexivity | exact IH].
Qed.

Lemma dget_dset {V} (d : dict V) k k' v :
  dget (dset d k v) k' = if text_eqb k' k then Some v else dget d k'.
Proof.
  destruct (text_eqb_spec k' k) as [->|H].
  - apply dget_dset_same.
  - apply dget_dset_other; assumption.
Qed.

Lemma dget_In {V} (d : dict V) k v : dget d k = Some v -> In (k, v) d.
Proof.
  induction d as [|[k' v'] d IH]; simpl; [discriminate|].
  destruct (text_eqb_spec k k') as [->|H]; [intros [= ->]; left; reflexivity | right; auto].
Qed.

Lemma dget_None {V} (d : dict V) k : dget d k = None <-> ~ In k (dkeys d).
Proof.
  induction d as [|[k' v'] d IH]; simpl; [tauto|].
  destruct (text_eqb_spec k k') as [->|H].
  - split; [discriminate | intros Hn; exfalso; apply Hn; left; reflexivity].
  - rewrite IH. split; [intros Hn [Hc|Hc]; [congruence | tauto] | tauto].
Qed.

Lemma dget_Some_key {V} (d : dict V) k : (exists v, dget d k = Some v) <-> In k (dkeys d).
Proof.
  destruct (dget d k) eqn:E.
  - split; [intros _ | intros _; eauto].
    apply dget_In in E. apply (in_map fst) in E. exact E.
  - split; [intros [v Hv]; discriminate |].
    intros H. apply dget_None in E. contradiction.
Qed.

Lemma dkeys_dset_In {V} (d : dict V) k v x : In x (dkeys (dset d k v)) <-> x = k \/ In x (dkeys d).
Proof.
  induction d as [|[k' v'] d IH]; simpl.
  - split; [intros [H|[]]; auto | intros [H|[]]; auto].
  - destruct (text_eqb_spec k k') as [->|H]; simpl.
    + split; [tauto | intros [->|H]; auto].
    + rewrite IH. tauto.
Qed.

Lemma dset_NoDup {V} (d : dict V) k v : NoDup (dkeys d) -> NoDup (dkeys (dset d k v)).
Proof.
  induction d as [|[k' v'] d IH]; simpl; intros H.
  - constructor; [simpl; tauto | constructor].
  - inversion H as [|? ? Hn Hd]; subst.
    destruct (text_eqb_spec k k') as [->|Hne]; simpl; constructor; auto.
    rewrite dkeys_dset_In. intros [->|Hc]; [congruence | contradiction].
Qed.

Lemma dset_id {V} (d : dict V) k v : dget d k = Some v -> NoDup (dkeys d) -> dset d k v = d.
Proof.
  induction d as [|[k' v'] d IH]; simpl; [discriminate|].
  destruct (text_eqb_spec k k') as [->|Hne]; intros H Hd.
  - congruence.
  - inversion Hd; subst. rewrite IH; auto.
Qed.

(** Keys removed by a predicate ([dict((x,y) for x,y in d.items() if not f(x))]). *)
Definition dremove_if {V} (f : text -> bool) (d : dict V) : dict V :=
  filter (fun kv => negb (f (fst kv))) d.

Lemma dget_dremove_if {V} (f : text -> bool) (d : dict V) k :
  dget (dremove_if f d) k = if f k then None else dget d k.
Proof.
  induction d as [|[k' v'] d IH]; simpl.
  - destruct (f k); reflexivity.
  - destruct (f k') eqn:E; simpl.
    + rewrite IH. destruct (f k) eqn:Ek; [reflexivity|].
      destruct (text_eqb_spec k k') as [->|H]; [congruence | reflexivity].
    + destruct (text_eqb_spec k k') as [->|H]; [rewrite E; reflexivity | exact IH].
Qed.

Lemma dkeys_dremove_if {V} (f : text -> bool) (d : dict V) :
  dkeys (dremove_if f d) = filter (fun k => negb (f k)) (dkeys d).
Proof.
  induction d as [|[k' v'] d IH]; simpl; [reflexivity|].
  destruct (f k'); simpl; rewrite <- IH; reflexivity.
Qed.

Lemma dremove_if_NoDup {V} (f : text -> bool) (d : dict V) : NoDup (dkeys d) -> NoDup (dkeys (dremove_if f d)).
Proof. rewrite dkeys_dremove_if. apply NoDup_filter. Qed.

(** * Miscellaneous list functions *)
Fixpoint last_opt {A} (l : list A) : option A :=
  match l with [] => None | [x] => Some x | _ :: l' => last_opt l' end.
