(** Vocabulary of the properties about what the gpg processes of a call really put out (C96). *)
From Verif Require Import Base PyStr Env Prog Chain Gpg Mime States Recommendation Account Cmdline Bot Fs Api Spec PeerSpec OutSpec AcctSpec CliSpec TalkSpec FailSpec.

Section RealSpec.
Context {E : Env}.

(** gpg command lines that export a public key or a secret key; [plain] exports are not armored *)
Definition home_args (home : list text) : Prop := home = [] \/ exists h, home = [L "--homedir"; h].
Definition armor_args (armor : bool) : list text := if armor then [L "-a"] else [].
Definition export_command (argv : list text) (armor : bool) (kh : text) : Prop :=
  exists path home, home_args home /\
    argv = [path; L "--batch"] ++ home ++ armor_args armor ++ [L "--export-options=export-minimal"; L "--export"; kh].
Definition secret_command (argv : list text) (kh : text) : Prop :=
  exists path home loopback, home_args home /\ (loopback = [] \/ loopback = [L "--pinentry-mode=loopback"]) /\
    argv = [path; L "--batch"] ++ home ++ [L "-a"; L "--passphrase"; L "123"] ++ loopback
      ++ [L "--export-options=export-minimal"; L "--export-secret-key"; kh].

(** One process, started with the key ring of account [a] in the state [s]; [c] is the
    configuration of the account. *)
Definition process_of (a : text) (c : cfg_entry) (argv : list text) (inp : option bytes) (res : gres) : gcall * gres :=
  (GCall (ring_of_mode a (cf_mode c)) argv inp None, res).

(** the process that gives out the own key for a header with address [x], and the header *)
Definition header_process (a : text) (c : cfg_entry) (kh x v : text) (p : gcall * gres) : Prop :=
  exists argv res, p = process_of a c argv None res /\ export_command argv false kh /\ g_ret res = 0%Z /\ g_err res = [] /\
    make_ac_header_value x (g_out res) (cf_pref c) = Ok v.
(** the process that encrypts the mail [m] to the addresses [to], and the mail that is made of
    what it puts out; [s] is the state in which the recipients are looked up *)
Definition encrypt_process (s : ast) (a : text) (c : cfg_entry) (own : text) (m : msg) (to khs : list text) (em : msg) (p : gcall * gres) : Prop :=
  exists argv data res gs clear, p = process_of a c argv (Some data) res /\ encrypt_command argv khs own /\ g_ret res = 0%Z /\
    Forall2 (fun x => key_in_use s a (norm x)) to khs /\ Forall2 (fun x => gossip_about s a (norm x)) to gs /\
    flatten clear = Ok data /\ m_body clear = m_body m /\
    m_headers clear = inner_headers m ++ map (fun v => (L "Autocrypt-Gossip", v)) (concat gs) /\
    m_body em = pgp_body (g_out res).
End RealSpec.
