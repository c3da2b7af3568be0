(** Vocabulary for C98: calls whose process is killed. *)
From Verif Require Import Base PyStr Env Prog Chain Gpg Mime States Recommendation Account Fs Api Spec.

Section KillSpec.
Context {E : Env}.

(** what is recorded in a chain, newest first, without the time of recording *)
Definition entries (s : ast) (n : text) : list entry := map bl_entry (alog s n).
(** the same is recorded in all chains *)
Definition same_entries (s s' : ast) : Prop := forall n, entries s' n = entries s n.
(** nothing was taken away, and all that was there is still at the end *)
Definition only_adds (s s' : ast) : Prop := forall n, exists added, alog s' n = added ++ alog s n.
(** no account is deleted by the call *)
Definition keeps_all (c : api) : Prop := forall a, deletes a c = false.
(** the call is tried again and again, and killed each time: after [k] operations for each [k] *)
Fixpoint tried (s : ast) (c : api) (ks : list nat) : ast :=
  match ks with [] => s | k :: ks' => tried (killed s c k) c ks' end.
(** changes the settings of the account, or deletes it *)
Definition sets_or_deletes (c : api) : option text :=
  match c with AMod n _ _ _ _ => Some n | ADel n => Some n | _ => None end.

End KillSpec.
