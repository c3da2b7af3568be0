(** Vocabulary of the properties about what happens when gpg fails (C74). *)
From Verif Require Import Base PyStr Env Prog Chain Gpg Mime States Recommendation Account Cmdline Bot Fs Api Spec OutSpec CliSpec TalkSpec.

Section FailSpec.
Context {E : Env}.

(** What the gpg processes of a list did, when they were started one after the other with
    these key rings, and the rings they left. *)
Fixpoint runs (rs : dict ring) (l : list gcall) : list (gcall * gres) :=
  match l with
  | [] => []
  | g :: l' => let run := gpg (ring_at rs (gc_home g)) (gc_argv g) (gc_in g) (gc_tmp g) in
               (g, snd run) :: runs (dset rs (gc_home g) (fst run)) l'
  end.
Fixpoint rings_after (rs : dict ring) (l : list gcall) : dict ring :=
  match l with
  | [] => rs
  | g :: l' => rings_after (dset rs (gc_home g) (fst (gpg (ring_at rs (gc_home g)) (gc_argv g) (gc_in g) (gc_tmp g)))) l'
  end.
(** the processes started between two states, in order, and what they did *)
Definition did (s s' : ast) (l : list (gcall * gres)) : Prop :=
  exists gs, a_trace s' = rev gs ++ a_trace s /\ l = runs (a_rings s) gs.

(** Success: exit code 0, readable messages, and for exports no message at all *)
Definition succeeded (g : gcall) (r : gres) : Prop :=
  g_ret r = 0%Z /\ utf8 (g_err r) <> None /\ (asks g KExport \/ asks g KExportSecret -> g_err r = []).
(** Failure, but not by an interrupt, and with readable messages *)
Definition failed_readably (r : gres) : Prop := g_ret r <> 130%Z /\ utf8 (g_err r) <> None.

(** the calls that process incoming mail *)
Definition takes_mail (c : api) : Prop :=
  match c with AIncoming _ _ _ _ | ACliIncoming _ _ _ _ | ABot _ _ _ => True | _ => False end.
Definition scans (c : api) : Prop := match c with ACliScandir _ _ => True | _ => False end.
(** a failure of this process does not make the call fail *)
Definition excused (c : api) (g : gcall) : Prop := takes_mail c /\ (asks g KImport \/ asks g KListPublic) \/ scans c.
End FailSpec.
