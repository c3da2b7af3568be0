(** Vocabulary of the properties about the other methods of BinGPG (C78). *)
From Verif Require Import Base PyStr Env Prog Chain Gpg Mime States Recommendation Account Cmdline Bot Fs Api Spec OutSpec AcctSpec CliSpec GpgSpec TalkSpec FailSpec KeySpec GpgMore.

(** ** Lines of a text, as str.splitlines has them *)
Definition breaks : list N := [10; 11; 12; 13; 28; 29; 30; 133; 8232; 8233]%N.
Definition one_line (l : text) : Prop := forall c, In c l -> ~ In c breaks.
Definition line_end (br : text) : Prop := br = [13; 10]%N \/ exists c, br = [c] /\ In c breaks.
Inductive broken : text -> list text -> Prop :=
| B_none : broken [] []
| B_last l : l <> [] -> one_line l -> broken l [l]
| B_line l br rest ls : one_line l -> line_end br -> (br = [13%N] -> hd_error rest <> Some 10%N) -> broken rest ls ->
    broken (l ++ br ++ rest) (l :: ls).
(** white space at both ends removed *)
Definition trimmed (s t : text) : Prop :=
  exists w1 w2, s = w1 ++ t ++ w2 /\ Forall (fun c => is_space c = true) (w1 ++ w2) /\
    (forall c, hd_error t = Some c \/ hd_error (rev t) = Some c -> is_space c = false).

(** ** What gpg --list-packets writes *)
(** ":type: value" *)
Definition heading (line t v : text) : Prop := exists v', line = L ":" ++ t ++ L ":" ++ v' /\ ~ In 58%N t /\ trimmed v' v.
(** lines that are passed over: comments, and a colon at the beginning only *)
Definition passed_over (line : text) : Prop :=
  (exists r, line = L "#" ++ r) \/ (exists r, line = L ":" ++ r /\ ~ In 58%N r).
Definition detail (line : text) : Prop := hd_error line <> Some 35%N /\ hd_error line <> Some 58%N.
Inductive details_of : list text -> list text -> Prop :=
| D_none : details_of [] []
| D_over line ls ds : passed_over line -> details_of ls ds -> details_of (line :: ls) ds
| D_line line ls ds : detail line -> details_of ls ds -> details_of (line :: ls) (line :: ds).
(** lines without white space at the ends *)
Inductive lists_packets : list text -> list packet -> Prop :=
| LP_none : lists_packets [] []
| LP_over line ls ps : passed_over line -> lists_packets ls ps -> lists_packets (line :: ls) ps
| LP_packet line t v body details ls ps : heading line t v -> details_of body details -> lists_packets ls ps ->
    lists_packets (line :: body ++ ls) ((t, v, details) :: ps).
Definition packets_written (out : text) (ps : list packet) : Prop :=
  exists raw ls, broken out raw /\ Forall2 trimmed raw ls /\ lists_packets ls ps.

(** the pieces of a text between separators *)
Definition cut_into (c : N) (s : text) (ls : list text) : Prop :=
  ls <> [] /\ join [c] ls = s /\ Forall (fun l => ~ In c l) ls.

Section GpgMoreSpec.
Context {E : Env}.
(** how the command line for a BinGPG object begins, and its key ring *)
Definition begin_of (g : bingpg) : list text :=
  [gp_path g; L "--batch"] ++ match gp_home g with Some (c :: h) => [L "--homedir"; c :: h] | _ => [] end.
Definition ring_of (g : bingpg) : text := match gp_home g with Some h => h | None => [] end.
Definition process (g : bingpg) (args : list text) (inp tmp : option bytes) : gcall :=
  GCall (ring_of g) (begin_of g ++ args) inp tmp.
(** it succeeded and put out [out] *)
Definition put_out (r : gres) (out : bytes) : Prop := g_ret r = 0%Z /\ utf8 (g_err r) <> None /\ g_out r = out.
(** what "gpg --version" puts out *)
Definition version_text (p out : text) : Prop :=
  g_ret (version_run p) = 0%Z /\ utf8 (g_err (version_run p)) <> None /\ utf8 (g_out (version_run p)) = Some out.
(** its line about algorithms of public keys *)
Definition pubkey_line (out r : text) : Prop :=
  exists ls, cut_into 10 out ls /\ first_such (fun l => exists r, l = L "Pubkey:" ++ r) ls (L "Pubkey:" ++ r).
(** one of the names in a list separated by commas, in any capitalization *)
Definition names_eddsa (r : text) : Prop :=
  exists names, cut_into 44 r names /\ Exists (fun x => exists t, trimmed x t /\ lower t = L "eddsa") names.
(** versions from 2.0 on, and those before 2.1.12 *)
Definition from_2_0 (ns : list N) : Prop :=
  (exists x r, ns = x :: r /\ (2 < x)%N) \/ (exists y r, ns = 2%N :: y :: r).
Definition from_2_1_12 (ns : list N) : Prop :=
  (exists x r, ns = x :: r /\ (2 < x)%N) \/ (exists y r, ns = 2%N :: y :: r /\ (1 < y)%N) \/
  (exists z r, ns = 2%N :: 1%N :: z :: r /\ (12 <= z)%N).
(** integers in decimal *)
Definition written_Z (z : Z) (t : text) : Prop :=
  if Z.ltb z 0 then exists t', t = L "-" ++ t' /\ written (Z.to_N (- z)) t' else written (Z.to_N z) t.
End GpgMoreSpec.
