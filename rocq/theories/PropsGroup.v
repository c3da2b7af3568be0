(** C92: the list of commands in the help.  Statements only; proofs are in GroupProofs.v. *)
From Verif Require Import Base PyStr Group GroupProofs.

(** The commands are listed in the order in which they were added, but only if their names are
    all different. *)
Theorem C92_listed_in_order_partial : forall (C : Type) (cs : list (cmd C)) l,
  list_commands (add_all group0 cs) = Ok l <-> cs <> [] /\ map cmd_name cs = map Some l /\ NoDup l.
Proof. exact @c92_list. Qed.
Print Assumptions C92_listed_in_order_partial.

(** So the help works with these plugins if and only if their commands have new names. *)
Theorem C92_with_plugins_partial : forall (C : Type) (bs ps : list (cmd C)) names,
  map cmd_name bs = map Some builtin -> map cmd_name ps = map Some names ->
  (NoDup names /\ (forall n, In n names -> ~ In n builtin) <-> list_commands (add_all group0 (bs ++ ps)) = Ok (builtin ++ names)).
Proof. exact @c92_plugins. Qed.
Print Assumptions C92_with_plugins_partial.

(** What is run for a name is the command that was added last. *)
Theorem C92_last_added_runs : forall (C : Type) (cs : list (cmd C)) n d,
  get_command (add_all group0 cs) n = Some d <->
  exists cs1 c cs2, cs = cs1 ++ c :: cs2 /\ cmd_name c = Some n /\ cmd_does c = d /\ forall c', In c' cs2 -> cmd_name c' <> Some n.
Proof. exact @c92_run. Qed.
Print Assumptions C92_last_added_runs.

Definition ours : list (cmd bool) := map (fun n => Cmd (Some n) false) builtin.
Example C92_example : map cmd_name ours = map Some builtin /\
  list_commands (add_all group0 ours) = Ok builtin /\ length builtin = 17%nat /\
  list_commands (add_all group0 (ours ++ [Cmd (Some (L "cc-status")) true])) = Ok (builtin ++ [L "cc-status"]) /\
  get_command (add_all group0 (ours ++ [Cmd (Some (L "cc-status")) true])) (L "cc-status") = Some true /\
  get_command (add_all group0 (ours ++ [Cmd (Some (L "cc-status")) true])) (L "status") = Some false.
Proof. do 5 (split; [vm_compute; reflexivity|]). vm_compute. reflexivity. Qed.

(** A plugin that replaces a command: the new command is run, but the help fails. *)
Theorem C92_replaced_command_refuted : exists (cs : list (cmd bool)) c n, map cmd_name cs = map Some builtin /\ cmd_name c = Some n /\
  snd (add_command (add_all group0 cs) c) = Ok tt /\
  get_command (add_all group0 (cs ++ [c])) n = Some (cmd_does c) /\ list_commands (add_all group0 (cs ++ [c])) = Err AssertionError.
Proof. exists ours, (Cmd (Some (L "status")) true), (L "status"). do 4 (split; [vm_compute; reflexivity|]). vm_compute. reflexivity. Qed.
Print Assumptions C92_replaced_command_refuted.
