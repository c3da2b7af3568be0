(** Programs over a signature of operations: a free monad with exceptions.  The modelled
    functions of /repo are written as such programs so that the same program can be run
    against different interpretations of its operations (abstract chains, files, crashes,
    interleavings). *)
From Verif Require Import Base.

Inductive prog (O : Type -> Type) (A : Type) : Type :=
| Ret (a : A)
| Raise (e : exn)
| Vis {X : Type} (o : O X) (k : X -> prog O A).
Arguments Ret {O A} a.
Arguments Raise {O A} e.
Arguments Vis {O A X} o k.

Fixpoint bind {O A B} (p : prog O A) (f : A -> prog O B) : prog O B :=
  match p with
  | Ret a => f a
  | Raise e => Raise e
  | Vis o k => Vis o (fun x => bind (k x) f)
  end.

(** try: p except: h e (h e = None means "not caught here") *)
Fixpoint catch {O A} (p : prog O A) (h : exn -> option (prog O A)) : prog O A :=
  match p with
  | Ret a => Ret a
  | Raise e => match h e with Some q => q | None => Raise e end
  | Vis o k => Vis o (fun x => catch (k x) h)
  end.

Definition lift {O A} (r : result A) : prog O A :=
  match r with Ok a => Ret a | Err e => Raise e end.

Definition perform {O X} (o : O X) : prog O X := Vis o Ret.

(** assert b *)
Definition assert_ {O} (b : bool) : prog O unit := if b then Ret tt else Raise AssertionError.

Declare Scope prog_scope.
Delimit Scope prog_scope with prog.
Notation "x <- p ;; q" := (bind p (fun x => q))
  (at level 61, p at next level, right associativity) : prog_scope.
Notation "' pat <- p ;; q" := (bind p (fun x => match x with pat => q end))
  (at level 61, pat pattern, p at next level, right associativity) : prog_scope.
Notation "p ;;; q" := (bind p (fun _ => q)) (at level 61, right associativity) : prog_scope.
Open Scope prog_scope.

(** for x in l: acc = f acc x *)
Fixpoint foldM {O A B} (f : B -> A -> prog O B) (l : list A) (b : B) : prog O B :=
  match l with
  | [] => Ret b
  | x :: l' => b' <- f b x ;; foldM f l' b'
  end.

Fixpoint mapM {O A B} (f : A -> prog O B) (l : list A) : prog O (list B) :=
  match l with
  | [] => Ret []
  | x :: l' => y <- f x ;; ys <- mapM f l' ;; Ret (y :: ys)
  end.

(** Interpretation of operations as state transformers. *)
Section Run.
  Context {O : Type -> Type} {S : Type}.
  Variable step : forall X, O X -> S -> S * X.

  Fixpoint run {A} (p : prog O A) (s : S) : S * result A :=
    match p with
    | Ret a => (s, Ok a)
    | Raise e => (s, Err e)
    | Vis o k => let (s', x) := step _ o s in run (k x) s'
    end.

  Lemma run_bind {A B} (p : prog O A) (f : A -> prog O B) s :
    run (bind p f) s =
    match run p s with
    | (s', Ok a) => run (f a) s'
    | (s', Err e) => (s', Err e)
    end.
  Proof.
    revert s; induction p as [a|e|X o k IH]; intros s; simpl; try reflexivity.
    destruct (step X o s) as [s' x]. apply IH.
  Qed.

  Lemma run_catch {A} (p : prog O A) h s :
    run (catch p h) s =
    match run p s with
    | (s', Ok a) => (s', Ok a)
    | (s', Err e) => match h e with Some q => run q s' | None => (s', Err e) end
    end.
  Proof.
    revert s; induction p as [a|e|X o k IH]; intros s; simpl; try reflexivity.
    - destruct (h e); reflexivity.
    - destruct (step X o s) as [s' x]. apply IH.
  Qed.
End Run.

(** The state in which a process is left that is killed after [n] operations of the program. *)
Section Stop.
  Context {O : Type -> Type} {S : Type}.
  Variable step : forall X, O X -> S -> S * X.

  Fixpoint stop {A} (n : nat) (p : prog O A) (s : S) : S :=
    match n with
    | 0 => s
    | Datatypes.S n' =>
      match p with
      | Ret _ | Raise _ => s
      | Vis o k => let (s', x) := step _ o s in stop n' (k x) s'
      end
    end.

  Lemma stop_ret {A} n (a : A) s : stop n (Ret a) s = s. Proof. destruct n; reflexivity. Qed.
  Lemma stop_raise {A} n e s : stop n (@Raise O A e) s = s. Proof. destruct n; reflexivity. Qed.
  Lemma stop_bind {A B} (p : prog O A) (f : A -> prog O B) n s :
    stop n (bind p f) s = stop n p s \/
    exists a m, snd (run step p s) = Ok a /\ stop n (bind p f) s = stop m (f a) (fst (run step p s)).
  Proof.
    revert n s; induction p as [a|e|X o k IH]; intros n s; cbn [bind run].
    - right. exists a, n. auto.
    - left. rewrite !stop_raise. reflexivity.
    - destruct n as [|n]; [left; reflexivity|]. cbn [stop]. destruct (step X o s) as [s' x]. apply IH.
  Qed.
  Lemma stop_catch {A} (p : prog O A) h n s :
    stop n (catch p h) s = stop n p s \/
    exists e q m, snd (run step p s) = Err e /\ h e = Some q /\ stop n (catch p h) s = stop m q (fst (run step p s)).
  Proof.
    revert n s; induction p as [a|e|X o k IH]; intros n s; cbn [catch run].
    - left. reflexivity.
    - destruct (h e) as [q|] eqn:Eh; [|left; reflexivity]. right. exists e, q, n. auto.
    - destruct n as [|n]; [left; reflexivity|]. cbn [stop]. destruct (step X o s) as [s' x]. apply IH.
  Qed.
  Lemma stop_whole {A} (p : prog O A) s : exists n, stop n p s = fst (run step p s).
  Proof.
    revert s; induction p as [a|e|X o k IH]; intros s; [exists 0; reflexivity..|].
    cbn [run]. destruct (step X o s) as [s' x] eqn:Es. destruct (IH x s') as [n Hn].
    exists (Datatypes.S n). cbn [stop]. rewrite Es. exact Hn.
  Qed.
End Stop.

(** Implementation of one signature by programs over another. *)
Fixpoint expand {O F : Type -> Type} (h : forall X, O X -> prog F X) {A} (p : prog O A) : prog F A :=
  match p with
  | Ret a => Ret a
  | Raise e => Raise e
  | Vis o k => bind (h _ o) (fun x => expand h (k x))
  end.

(** All operations a program can perform satisfy [P]. *)
Inductive allowed {O : Type -> Type} (P : forall X, O X -> Prop) {A} : prog O A -> Prop :=
| al_ret a : allowed P (Ret a)
| al_raise e : allowed P (Raise e)
| al_vis X (o : O X) k : P X o -> (forall x, allowed P (k x)) -> allowed P (Vis o k).

Lemma allowed_bind {O : Type -> Type} (P : forall X, O X -> Prop) {A B} (p : prog O A) (f : A -> prog O B) :
  allowed P p -> (forall a, allowed P (f a)) -> allowed P (bind p f).
Proof. intros H Hf. induction H; simpl; auto; constructor; auto. Qed.

Lemma allowed_catch {O : Type -> Type} (P : forall X, O X -> Prop) {A} (p : prog O A) h :
  allowed P p -> (forall e q, h e = Some q -> allowed P q) -> allowed P (catch p h).
Proof.
  intros H Hh. induction H; simpl; try constructor; auto.
  destruct (h e) eqn:Eh; [eauto | constructor].
Qed.

Lemma allowed_lift {O : Type -> Type} (P : forall X, O X -> Prop) {A} (r : result A) : allowed P (lift r).
Proof. destruct r; constructor. Qed.

Lemma allowed_perform {O : Type -> Type} (P : forall X, O X -> Prop) {X} (o : O X) : P X o -> allowed P (perform o).
Proof. intros; constructor; [assumption | intros; constructor]. Qed.

Lemma allowed_assert {O : Type -> Type} (P : forall X, O X -> Prop) b : allowed P (assert_ b).
Proof. destruct b; constructor. Qed.

Lemma allowed_foldM {O : Type -> Type} (P : forall X, O X -> Prop) {A B} (f : B -> A -> prog O B) l b :
  (forall b a, In a l -> allowed P (f b a)) -> allowed P (foldM f l b).
Proof.
  revert b; induction l as [|x l IH]; intros b H; simpl; [constructor|].
  apply allowed_bind; [apply H; left; reflexivity|]. intros b'. apply IH. intros; apply H; right; assumption.
Qed.

Lemma allowed_mapM {O : Type -> Type} (P : forall X, O X -> Prop) {A B} (f : A -> prog O B) l :
  (forall a, In a l -> allowed P (f a)) -> allowed P (mapM f l).
Proof.
  induction l as [|x l IH]; intros H; simpl; [constructor|].
  apply allowed_bind; [apply H; left; reflexivity|]. intros b'.
  apply allowed_bind; [apply IH; intros; apply H; right; assumption|]. constructor.
Qed.

Lemma allowed_weaken {O : Type -> Type} (P Q : forall X, O X -> Prop) {A} (p : prog O A) :
  (forall X o, P X o -> Q X o) -> allowed P p -> allowed Q p.
Proof. intros H Hp. induction Hp; constructor; auto. Qed.

(** If every allowed operation preserves a relation to the initial state, so does the run. *)
Lemma run_allowed_inv {O : Type -> Type} {S} (step : forall X, O X -> S -> S * X)
  (P : forall X, O X -> Prop) (I : S -> Prop) {A} (p : prog O A) :
  (forall X (o : O X) s, P X o -> I s -> I (fst (step X o s))) ->
  allowed P p -> forall s, I s -> I (fst (run step p s)).
Proof.
  intros Hstep Hp. induction Hp as [a|e|X o k HP Hk IH]; intros s Hs; simpl; auto.
  specialize (Hstep X o s HP Hs). destruct (step X o s) as [s' x]. simpl in *. auto.
Qed.
