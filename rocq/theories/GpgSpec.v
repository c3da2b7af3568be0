(** Vocabulary of the properties about what gpg prints (C69 to C73). *)
From Verif Require Import Base PyStr Env Prog Chain Gpg Mime States Recommendation Account Cmdline Bot Fs Api Spec CliSpec.

Definition all_of (f : N -> bool) (s : text) : Prop := s <> [] /\ forall c, In c s -> f c = true.
(** digits; capital letters and digits; digits and dashes *)
Definition digit_cp (c : N) : bool := N.leb 48 c && N.leb c 57.
Definition capital_cp (c : N) : bool := digit_cp c || (N.leb 65 c && N.leb c 90).
Definition hex_cp (c : N) : bool := digit_cp c || (N.leb 65 c && N.leb c 70).
Definition date_cp (c : N) : bool := digit_cp c || N.eqb c 45.

(** The lines that gpg (before 2.3) writes for a key that a mail is encrypted to *)
Definition key_line (bits type id date : text) : text :=
  L "gpg: encrypted with " ++ bits ++ L "-bit " ++ type ++ L " key, ID " ++ id ++ L ", created " ++ date.
Definition uid_line (uid : text) : text := L "      " ++ [34%N] ++ uid ++ [34%N].
(** lines in which gpg reports the keys [ks] (id, user id), with other lines between *)
Inductive reports : list text -> list (text * text) -> Prop :=
| rp_end : reports [] []
| rp_other line ls ks : ~ (exists r, line = L "gpg" ++ r) \/ (forall a b, line <> a ++ L "-bit " ++ b) ->
    reports ls ks -> reports (line :: ls) ks
| rp_key bits type id date uid ls ks : all_of digit_cp bits -> all_of capital_cp type -> all_of hex_cp id -> all_of date_cp date ->
    (forall r, uid <> 34%N :: r) -> (forall r, uid <> r ++ [34%N]) ->
    reports ls ks -> reports (key_line bits type id date :: uid_line uid :: ls) ((id, uid) :: ks).

Section GpgSpec.
Context {E : Env}.
(** gpg's answer if it is called now with this command line *)
Definition gpg_now (s : ast) (argv : list text) (inp : option bytes) : gres :=
  snd (gpg (ring_at (a_rings s) (argv_home argv)) argv inp None).
(** ** The program that is started (C70) *)
(** the path of a file in a directory *)
Definition file_in (dir name p : text) : Prop :=
  (dir = [] /\ p = name) \/
  (exists d, dir = d ++ L "/" /\ p = dir ++ name) \/
  (dir <> [] /\ (forall d, dir <> d ++ L "/") /\ p = dir ++ L "/" ++ name).
(** [p] is the file found for the program name: the name itself if it begins with a slash;
    otherwise the first file of this name in the directories listed in PATH *)
Inductive located (name p : text) : Prop :=
| loc_absolute : (exists r, name = L "/" ++ r) -> is_file name = true -> p = name -> located name p
| loc_path dirs1 dir dirs2 : (forall r, name <> L "/" ++ r) ->
    env_path = join (L ":") (dirs1 ++ dir :: dirs2) -> Forall (fun d => ~ In 58%N d) (dirs1 ++ dir :: dirs2) ->
    (forall d q, In d dirs1 -> file_in d name q -> is_file q = false) ->
    file_in dir name p -> is_file p = true -> located name p.
(** the call sets the program of an account *)
Definition gives (c : api) (a b : text) : Prop :=
  match c with
  | AAdd n _ _ bin _ | ACliAdd n _ _ bin _ => n = a /\ bin = b
  | AMod n _ _ bin _ => n = a /\ bin = Some b
  | ACliMod n _ bin _ _ => n = a /\ match bin with Some x => x | None => L "gpg" end = b
  | _ => False
  end.
(** the program name of an account that a call works with: the given one, or the one in the
    settings *)
Definition program_name (s : ast) (c : api) (a b : text) : Prop :=
  gives c a b \/ ((forall x, ~ gives c a x) /\ exists cfg kh, own_of s a = Some (cfg, kh) /\ cf_bin cfg = b).

(** ** The version of the program (C71) *)
(** "gpg --version" succeeds and puts out two words and a version made of numbers *)
Definition tells_version (p : text) (ns : list N) : Prop :=
  exists out err e w1 w2 ts rest, version_run p = GRes 0 out err /\ utf8 err = Some e /\
    utf8 out = Some (w1 ++ L " " ++ w2 ++ L " " ++ join (L ".") ts ++ rest) /\
    ~ In 32%N (w1 ++ w2) /\ ~ In 10%N (w1 ++ w2) /\ Forall2 written ns ts /\ ns <> [] /\
    (rest = [] \/ exists r, rest = [10%N] ++ r \/ rest = L " " ++ r).
(** version 2.1 or later *)
Definition from_2_1 (ns : list N) : Prop :=
  (exists x r, ns = x :: r /\ (2 < x)%N) \/ (exists y r, ns = 2%N :: y :: r /\ (1 <= y)%N).
(** The settings of the account name a program that is there and tells a version made of
    numbers. *)
Definition gpg_ready (s : ast) (a : text) : Prop :=
  exists c kh p v, own_of s a = Some (c, kh) /\ cf_bin c <> [] /\ located (cf_bin c) p /\ tells_version p v.
End GpgSpec.
