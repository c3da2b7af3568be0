(** The group of commands of the command line program, which plugins can add to. *)
From Verif Require Import Base PyStr.

(** A command: its name, and what it does.  The name of a click command can be missing. *)
Record cmd (C : Type) := Cmd { cmd_name : option text; cmd_does : C }.
Arguments Cmd {C}. Arguments cmd_name {C}. Arguments cmd_does {C}.

(** The two attributes of a group: [commands] of click, and [_cmdlist], which does not exist
    before the first command is added (cmdline_utils.py:26). *)
Record group (C : Type) := Group { gr_commands : dict C; gr_list : option (list (option text)) }.
Arguments Group {C}. Arguments gr_commands {C}. Arguments gr_list {C}.
Definition group0 {C} : group C := Group [] None.

(** cmdline_utils.py:23-28 MyGroup.add_command; click's own add_command raises TypeError for a
    command without a name and otherwise sets commands[name].  (Left out: its check for chained
    groups, which muacrypt does not use.) *)
Definition add_command {C} (g : group C) (c : cmd C) : group C * result unit :=
  let l := Some (match gr_list g with Some l => l | None => [] end ++ [cmd_name c]) in
  match cmd_name c with
  | None => (Group (gr_commands g) l, Err TypeError)
  | Some n => (Group (dset (gr_commands g) n (cmd_does c)) l, Ok tt)
  end.

(** sorted() of a list with names and None: None cannot be compared with a string or with None *)
Fixpoint all_names (l : list (option text)) : option (list text) :=
  match l with
  | [] => Some []
  | Some n :: l' => option_map (cons n) (all_names l')
  | None :: _ => None
  end.
Fixpoint texts_eqb (l l' : list text) : bool :=
  match l, l' with
  | [], [] => true
  | x :: l, y :: l' => text_eqb x y && texts_eqb l l'
  | _, _ => false
  end.
(** cmdline_utils.py:30-33 MyGroup.list_commands; click's own list_commands is the sorted list
    of the names.  The help asks for this list. *)
Definition list_commands {C} (g : group C) : result (list text) :=
  let commands := sorted (dkeys (gr_commands g)) in
  match gr_list g with
  | None => Err AttributeError
  | Some l =>
    match all_names l with
    | None => if (length l <=? 1)%nat then Err AssertionError else Err TypeError
    | Some names => if texts_eqb (sorted commands) (sorted names) then Ok names else Err AssertionError
    end
  end.

(** click's get_command: what is run for a name *)
Definition get_command {C} (g : group C) (n : text) : option C := dget (gr_commands g) n.

(** Commands added one after the other; failures are caught. *)
Definition add_all {C} (g : group C) (cs : list (cmd C)) : group C := fold_left (fun g c => fst (add_command g c)) cs g.

(** cmdline.py:563-579, with the names in the decorators (cmdline.py:41,107,141,163,177,190,207,222,252,284,358,404,437,465,476,486,
    bot.py:27) *)
Definition builtin : list text :=
  [L "status"; L "add-account"; L "mod-account"; L "del-account"; L "find-account"; L "process-incoming"; L "scandir-incoming";
   L "import-public-key"; L "peerstate"; L "recommend"; L "process-outgoing"; L "sendmail"; L "make-header"; L "export-public-key";
   L "export-secret-key"; L "bot-reply"; L "destroy-all"].
