(** C70 and C71: the program that is started as gpg, and its version.  Statements only; proofs
    are in ProgProofs.v and VersionProofs.v, the vocabulary is in GpgSpec.v. *)
From Verif Require Import Base PyStr Env Prog Chain Gpg Mime States Recommendation Account Fs Api Spec PeerSpec AcctSpec OutSpec Obs
  CliSpec GpgSpec ProgProofs VersionProofs Toy Demo PropsCli.

(** ** C70 *)
(** Whatever a call for an account starts is the file found for the program name of that
    account: the name given in the call, or the one in its settings before the call. *)
Theorem C70_program_of_the_account : forall (E : Env) s c a g, reachable s -> names c = Some a -> (forall m, c <> ACliDel m) -> ran s (after s c) g ->
  exists p rest b, gc_argv g = p :: rest /\ program_name s c a b /\ located b p.
Proof. exact @c70_named. Qed.
Print Assumptions C70_program_of_the_account.
(** Whatever is started by any call is the file found for a program name that was given for
    some account. *)
Theorem C70_program_was_given : forall (E : Env) cs c g, ran (after_all ast0 cs) (after (after_all ast0 cs) c) g ->
  exists p rest b a d, gc_argv g = p :: rest /\ located b p /\ In d (cs ++ [c]) /\ gives d a b.
Proof. exact @c70_history. Qed.
Print Assumptions C70_program_was_given.

(** A computer with gpg at two places *)
Definition two_programs : Env :=
  toy_system (L "/usr/bin:/opt/bin/:/usr/sbin") (fun p => mem_text p [L "/opt/bin/gpg"; L "/usr/sbin/gpg"; L "/usr/local/gpg2"; L "bin/gpg"; L "/usr/sbin/bin/gpg"])
    (fun _ => GRes 0 (L "gpg (GnuPG) 2.2.40") []) [] (fun n => (1000000 + Z.of_nat n) * sec)%Z.
#[local] Existing Instance two_programs.
Definition first_program (s : ast) (c : api) : option text :=
  match a_trace (after s c) with GCall _ (p :: _) _ _ :: _ => Some p | _ => None end.
Definition add_with (bin : text) : api := AAdd (L "a") None None bin (L "own").

(** The help text of the commands says that simple names are looked up in PATH and others are
    file names.  A file name with a directory that does not begin with a slash is looked up in
    PATH, too. *)
Theorem C70_relative_file_refuted : exists (E : Env) s c a b p g, @reached E s /\ gives c a b /\ b = L "bin/gpg" /\ @is_file E b = true /\
  @ran E s (@after E s c) g /\ p = L "/usr/sbin/bin/gpg" /\ exists rest, gc_argv g = p :: rest.
Proof.
  exists two_programs, ast0, (add_with (L "bin/gpg")), (L "a"), (L "bin/gpg"), (L "/usr/sbin/bin/gpg"), (hd (GCall [] [] None None) (a_trace (after ast0 (add_with (L "bin/gpg"))))).
  split; [exists []; reflexivity|]. split; [split; reflexivity|]. split; [reflexivity|]. split; [vm_compute; reflexivity|].
  split. { exists (a_trace (after ast0 (add_with (L "bin/gpg")))). split; [vm_compute; reflexivity|vm_compute; left; reflexivity]. }
  split; [reflexivity|]. eexists. vm_compute. reflexivity.
Qed.
Print Assumptions C70_relative_file_refuted.

Example C70_example :
  let s := after ast0 (add_with (L "gpg")) in
  let c := ACliMod (L "a") None (Some (L "/usr/local/gpg2")) None None in
  first_program ast0 (add_with (L "gpg")) = Some (L "/opt/bin/gpg") /\ first_program ast0 (add_with (L "gpg1")) = None /\
  first_program s (AExportPub (L "a") None) = Some (L "/opt/bin/gpg") /\ first_program s c = Some (L "/usr/local/gpg2") /\
  first_program (after s c) (AExportPub (L "a") None) = Some (L "/usr/local/gpg2") /\
  located (L "gpg") (L "/opt/bin/gpg") /\ located (L "/usr/local/gpg2") (L "/usr/local/gpg2").
Proof.
  cbv zeta. do 5 (split; [vm_compute; reflexivity|]). split; apply located_found; vm_compute; reflexivity.
Qed.

(** ** C71 *)
(** The options for a key without passphrase go with the version: from 2.1 on gpg is told to
    take the passphrase from the command line, and before it is not given that option. *)
Theorem C71_options_of_the_version : forall (E : Env) s c g, reachable s -> ran s (after s c) g ->
  exists p home pass args, gc_argv g = [p; L "--batch"] ++ home ++ args /\ home_args home /\ gpg_use pass args (gc_in g) (gc_tmp g) /\
    forall ns, tells_version p ns ->
      (from_2_1 ns /\ pass = [L "--passphrase"; L "123"; L "--pinentry-mode=loopback"]) \/ (~ from_2_1 ns /\ pass = [L "--passphrase"; L "123"]).
Proof. exact @c71. Qed.
Print Assumptions C71_options_of_the_version.

(** Computers on which gpg puts out a given text for its version *)
Definition versioned (v : text) : Env :=
  toy_system [] (fun p => text_eqb p (L "gpg")) (fun _ => GRes 0 v []) [] (fun n => (1000000 + Z.of_nat n) * sec)%Z.
(** A version that is not made of numbers cannot always be compared: with 2.1-beta3 no account
    can be made. *)
Theorem C71_other_versions_refuted : exists (E : Env) (v : text), @located E (L "gpg") (L "gpg") /\ @version_run E (L "gpg") = GRes 0 v [] /\
  v = L "gpg (GnuPG) 2.1-beta3" /\ @answer E ast0 (add_with (L "gpg")) = Err TypeError.
Proof.
  exists (versioned (L "gpg (GnuPG) 2.1-beta3")), (L "gpg (GnuPG) 2.1-beta3"). split; [apply located_found; vm_compute; reflexivity|].
  split; [vm_compute; reflexivity|]. split; [reflexivity|vm_compute; reflexivity].
Qed.
Print Assumptions C71_other_versions_refuted.

(** The arguments for generating a key with three versions *)
Definition generating (v : text) : option (list text) :=
  match a_trace (@after (versioned v) ast0 (add_with (L "gpg"))) with
  | [_; g] | [g] => Some (gc_argv g)
  | _ => None
  end.
Definition in_home (args : list text) : list text := [L "gpg"; L "--batch"; L "--homedir"; L "/dir/gpg/a"] ++ args.
Example C71_example :
  @tells_version (versioned (L "gpg (GnuPG) 2.0.30")) (L "gpg") [2; 0; 30]%N /\ ~ from_2_1 [2; 0; 30]%N /\
  @tells_version (versioned (L "gpg (GnuPG) 2.1")) (L "gpg") [2; 1]%N /\ from_2_1 [2; 1]%N /\ from_2_1 [10; 0]%N /\
  generating (L "gpg (GnuPG) 2.0.30") = Some (in_home [L "--passphrase"; L "123"; L "--gen-key"; L "<tmpfile>"]) /\
  generating (L "gpg (GnuPG) 2.1") = Some (in_home [L "--passphrase"; L "123"; L "--pinentry-mode=loopback"; L "--gen-key"; L "<tmpfile>"]) /\
  generating (L "gpg (GnuPG) 10.0") = Some (in_home [L "--passphrase"; L "123"; L "--pinentry-mode=loopback"; L "--gen-key"; L "<tmpfile>"]).
Proof.
  split; [eapply tells_printed; [vm_compute; reflexivity|vm_compute; reflexivity|vm_compute; reflexivity|discriminate]|].
  split; [intros [[x [r [[= <- <-] H]]]|[x [r [[= <- <-] H]]]]; lia|].
  split; [eapply tells_printed; [vm_compute; reflexivity|vm_compute; reflexivity|vm_compute; reflexivity|discriminate]|].
  split; [right; exists 1%N, []; split; [reflexivity|lia]|]. split; [left; exists 10%N, [0%N]; split; [reflexivity|lia]|].
  split; [vm_compute; reflexivity|]. split; vm_compute; reflexivity.
Qed.
