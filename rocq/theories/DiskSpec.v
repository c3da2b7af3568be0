(** Vocabulary of the properties about directories, files and permissions (C83). *)
From Verif Require Import Base PyStr Env Prog Chain Gpg Disk.

(** nothing that was there is gone or different *)
Definition kept (s s' : disk) : Prop := forall q n, d_node s q = Some n -> d_node s' q = Some n.
(** what is there now and was not there before *)
Definition added (s s' : disk) (q : path) (n : node) : Prop := d_node s q = None /\ d_node s' q = Some n.
(** a directory above [p] *)
Definition above (q p : path) : Prop := exists cs, cs <> [] /\ p = cs ++ q.
(** the modes 0o777 and 0o666 without the bits of the umask *)
Definition usual_dir (s : disk) (n : node) : Prop := n = NDir (N.ldiff (7 * 64 + 7 * 8 + 7) (d_umask s)).
Definition usual_file (s : disk) (content : bytes) (n : node) : Prop := n = NFile (N.ldiff (6 * 64 + 6 * 8 + 6) (d_umask s)) content.
(** the modes 0o700 and 0o600 *)
Definition owner_dir (n : node) : Prop := n = NDir (7 * 64).
Definition owner_file (content : bytes) (n : node) : Prop := n = NFile (6 * 64) content.
(** the file in a gpg home directory, and what is written there *)
Definition conf_in (home : path) : path := L "gpg-agent.conf" :: home.
Definition conf_line : bytes := L "allow-loopback-pinentry" ++ [10%N].
(** a directory can be made: it or what is above it is a directory as far as it is there *)
Definition makeable (s : disk) (p : path) : Prop :=
  (exists m, d_node s [] = Some (NDir m)) /\
  forall q n, q = p \/ above q p -> d_node s q = Some n -> exists m, n = NDir m.
(** the same files and directories *)
Definition same_disk (s s' : disk) : Prop := forall q, d_node s' q = d_node s q.
(** the same ones except for one path *)
Definition same_but (f : path) (s s' : disk) : Prop := forall q, q <> f -> d_node s' q = d_node s q.
