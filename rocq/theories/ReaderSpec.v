(** Vocabulary of the properties about reading and damaged files (C77). *)
From Verif Require Import Base PyStr Env Prog Chain Gpg Mime States Recommendation Account Cmdline Bot Fs Api Spec Refine Reader.

Section ReaderSpec.
Context {E : Env}.

(** what a history of calls appended to a log, newest first *)
Definition logged (h : list api) (n : text) : list block := spec_log n (session_events h ast0) [].
(** the block files of a log, newest first *)
Definition log_files (s : fstate) (n : text) : list text :=
  match snd (frun (chain_blocks n) s) with Ok l => map fst l | Err _ => [] end.
(** [s'] is [s] with anything done to block files except the [i] newest of this log *)
Definition newest_kept (i : nat) (n : text) (s s' : fstate) : Prop :=
  f_heads s' = f_heads s /\
  forall c, In c (firstn i (log_files s n)) -> dget (f_blocks s') c = dget (f_blocks s) c.
End ReaderSpec.
