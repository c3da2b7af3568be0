(** Vocabulary of C85: a process that only reads, while others write. *)
From Verif Require Import Base PyStr Env Prog Chain Fs Api Refine Spec Conc.

Section WatchSpec.
Context {E : Env}.

(** what PeerState, OwnState and Recommendation do: reading logs, and the list of logs *)
Definition reads_only (X : Type) (o : cop X) : Prop := match o with CRead _ | CHeads => True | _ => False end.

(** a process that has ended *)
Definition ended {A} (r : result A) : prog fop A := match r with Ok a => Ret a | Err e => Raise e end.

(** [sees ps s p r]: while the processes [ps] work, beginning with the files [s], the reader [p]
    gets the answer [r], if each of its reads took no time at all. *)
Inductive sees {A} : list (prog fop A) -> fstate -> prog cop A -> result A -> Prop :=
| se_done ps s a : sees ps s (Ret a) (Ok a)
| se_raised ps s e : sees ps s (Raise e) (Err e)
| se_others ps s ps' s' p r : interleave ps s ps' s' -> sees ps' s' p r -> sees ps s p r
| se_read ps s X (o : cop X) k x r : snd (frun (impl o) s) = Ok x -> sees ps s (k x) r -> sees ps s (Vis o k) r
| se_failed ps s X (o : cop X) k e : snd (frun (impl o) s) = Err e -> sees ps s (Vis o k) (Err e).

(** at some time the files were these *)
Definition at_some_time {A} (ps : list (prog fop A)) (s s1 : fstate) : Prop := exists ps1, interleave ps s ps1 s1.
End WatchSpec.
