(** C72 and C73: the keys of accounts and peers are the ones that gpg told.  Statements only;
    proofs are in KeyProofs.v and HandleProofs.v, the vocabulary is in KeySpec.v. *)
From Verif Require Import Base PyStr Env Prog Chain Gpg Mime States Recommendation Account Fs Api Spec PeerSpec AcctSpec OutSpec Obs
  CliSpec GpgSpec GpgText KeySpec KeyText KeyProofs HandleProofs Toy Demo PropsCli.

(** ** C72 *)
(** An account that is created for a given key: gpg is asked to list the secret keys with that
    name, and the account has the first one in the answer whose id ends with the name, or that
    has a user id with the name in it. *)
Theorem C72_given_key : forall (E : Env) s c n mode bin h r, reachable s -> creates_with c n mode bin (Some h) -> answer s c = Ok r ->
  exists p out us cfg kh, located bin p /\
    let argv := start_of p mode n ++ [L "--skip-verify"; L "--with-colons"; L "--list-secret-keys"; h] in
    ran s (after s c) (GCall (argv_home argv) argv None None) /\
    utf8 (g_out (snd (gpg (ring_used s mode n) argv None None))) = Some out /\
    first_such (named_by h) (keys_in (L "sec") (L "ssb") out) (kh, us) /\ own_of (after s c) n = Some (cfg, kh).
Proof. exact @c72_given. Qed.
Print Assumptions C72_given_key.

#[local] Existing Instance E0.
Definition add_system (n : text) (kh : option text) : api := AAdd n None kh (L "gpg") (L "system").
Definition with_a : ast := after ast0 (add_system (L "a") None).

(** The user id need not be the given one: an address that only ends like the given one is
    taken. *)
Theorem C72_exact_user_id_refuted : exists (E : Env) s c h out kh us cfg, reached s /\ creates_with c (L "b") (L "system") (L "gpg") (Some h) /\ h = L "n@key" /\
  utf8 (g_out (snd (gpg (ring_used s (L "system") (L "b")) (start_of (L "gpg") (L "system") (L "b") ++ [L "--skip-verify"; L "--with-colons"; L "--list-secret-keys"; h]) None None))) = Some out /\
  keys_in (L "sec") (L "ssb") out = [(kh, us)] /\ us = [L "own@key"] /\ (exists r, answer s c = Ok r) /\ own_of (after s c) (L "b") = Some (cfg, kh).
Proof.
  exists E0, with_a, (add_system (L "b") (Some (L "n@key"))), (L "n@key"), (toy_line (L "sec") (TKey (toy_id 0) (L "own@key") true)), (toy_id 0), [L "own@key"],
    (CfgEntry (L "nopreference") (L "b") (L ".*") (L "system") (L "gpg")).
  split; [exists [add_system (L "a") None]; reflexivity|]. split; [vm_compute; auto|]. split; [reflexivity|]. split; [vm_compute; reflexivity|].
  split; [vm_compute; reflexivity|]. split; [reflexivity|]. split; [eexists; vm_compute; reflexivity|vm_compute; reflexivity].
Qed.
Print Assumptions C72_exact_user_id_refuted.

Definition nl : text := [10%N].
Definition listing : text :=
  L "sec:u:3072:1:AAAA:0::::" ++ nl ++ L "uid:::::::::a@a.org:" ++ nl ++ L "ssb:u:3072:1:BBBB:0::::" ++ nl ++ L "uid:::::::::c@c.org:" ++ nl.
Example C72_example :
  let c h := add_system (L "b") (Some h) in
  reachable with_a /\ creates_with (c (L "own@key")) (L "b") (L "system") (L "gpg") (Some (L "own@key")) /\
  (exists r, answer with_a (c (L "own@key")) = Ok r) /\ option_map snd (own_of (after with_a (c (L "own@key"))) (L "b")) = Some (toy_id 0) /\
  (exists e, answer with_a (c (L "other@key")) = Err e) /\
  keys_in (L "sec") (L "ssb") listing = [(L "AAAA", [L "a@a.org"; L "c@c.org"]); (L "BBBB", [])] /\
  named_by (L "aa") (L "AAAA", [L "a@a.org"]) /\ named_by (L "a.org") (L "AAAA", [L "a@a.org"]) /\ ~ named_by (L "bb") (L "AAAA", [L "a@a.org"]).
Proof.
  cbv zeta. split; [apply reached_reachable; exists [add_system (L "a") None]; reflexivity|]. split; [vm_compute; auto|]. split; [eexists; vm_compute; reflexivity|].
  split; [vm_compute; reflexivity|]. split; [eexists; vm_compute; reflexivity|]. split; [vm_compute; reflexivity|].
  split; [apply (named_spec (L "aa") (KeyInfo (L "AAAA") [L "a@a.org"] true)); vm_compute; reflexivity|].
  split; [apply (named_spec (L "a.org") (KeyInfo (L "AAAA") [L "a@a.org"] true)); vm_compute; reflexivity|].
  intros H. apply (named_spec (L "bb") (KeyInfo (L "AAAA") [L "a@a.org"] true)) in H. vm_compute in H. discriminate H.
Qed.

(** ** C73 *)
(** An account that is created without a key: gpg is asked to generate one, for a new random
    address, and the account has the key that gpg reports. *)
Theorem C73_generated_key : forall (E : Env) s c n mode bin r, reachable s -> creates_with c n mode bin None -> answer s c = Ok r ->
  exists p pass spec err cfg kh, located bin p /\ pass_args pass /\
    to_utf8 (key_settings (uuid_hex (a_uuid s) ++ L "@random.muacrypt.org")) = Some spec /\
    let argv := start_of p mode n ++ pass ++ [L "--gen-key"; L "<tmpfile>"] in
    ran s (after s c) (GCall (argv_home argv) argv None (Some spec)) /\
    utf8 (g_err (snd (gpg (ring_used s mode n) argv None (Some spec)))) = Some err /\
    reported (fst (gpg (ring_used s mode n) argv None (Some spec))) (start_of p mode n) err kh /\ own_of (after s c) n = Some (cfg, kh).
Proof. exact @c73_generated. Qed.
Print Assumptions C73_generated_key.
(** The key handle of a peer is what a gpg program, started for this account, reported when it
    imported the key of that peer, or a key whose short form is the key of that peer. *)
Theorem C73_peer_key : forall (E : Env) s a x v, reachable s -> peer_of s a x = Some v -> pv_keyhandle v <> [] ->
  exists bin p mode r data err, located bin p /\
    let start := start_of p mode a in
    let run := gpg r (start ++ [L "--skip-verify"; L "--import"]) (Some data) None in
    utf8 (g_err (snd run)) = Some err /\ reported (fst run) start err (pv_keyhandle v) /\
    (data = pv_keydata v \/
     exists r', g_out (snd (gpg r' (start ++ [L "--export-options=export-minimal"; L "--export"; pv_keyhandle v]) None None)) = pv_keydata v).
Proof. exact @c73_peers. Qed.
Print Assumptions C73_peer_key.

Definition fresh : api := AAdd (L "a") None None (L "gpg") (L "own").
Definition hello : api := in_a (ac_mail bob alice (L "100") (L "<1>") (L "mutual") keyB).
Definition met : ast := after (after ast0 fresh) hello.
Example C73_example :
  creates_with fresh (L "a") (L "own") (L "gpg") None /\ (exists r, answer ast0 fresh = Ok r) /\
  option_map snd (own_of (after ast0 fresh) (L "a")) = Some (toy_id 0) /\
  reachable met /\ option_map pv_keyhandle (peer_of met (L "a") bob) = Some (skipn 3 keyB) /\
  first_mention (L "gpg: key ID 12AF: imported, key 77") (L "12AF") /\
  reported (E := E0) [TKey (L "AAAAAAAAAAAABBBB") (L "key BBBB") true] [L "gpg"] (L "gpg: key BBBB imported") (L "AAAAAAAAAAAABBBB").
Proof.
  split; [vm_compute; auto|]. split; [eexists; vm_compute; reflexivity|]. split; [vm_compute; reflexivity|].
  split; [apply reached_reachable; exists [fresh; hello]; reflexivity|]. split; [vm_compute; reflexivity|]. split; [apply search_spec; vm_compute; reflexivity|].
  exists (L "BBBB"). split; [apply search_spec; vm_compute; reflexivity|]. right. split; [vm_compute; lia|].
  exists (toy_line (L "pub") (TKey (L "AAAAAAAAAAAABBBB") (L "key BBBB") true)), [L "key BBBB"]. split; [vm_compute; reflexivity|].
  exists [], []. split; [vm_compute; reflexivity|]. split; [apply ki_match_spec; vm_compute; reflexivity|constructor].
Qed.
