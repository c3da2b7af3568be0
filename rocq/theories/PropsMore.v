(** C78: the other methods of BinGPG.  Statements only; proofs are in GpgMoreProofs.v, the
    vocabulary is in GpgMoreSpec.v. *)
From Verif Require Import Base PyStr Base64 Env Prog Chain Gpg Mime States Recommendation Account Fs Api Spec PeerSpec AcctSpec OutSpec Obs
  CliSpec GpgSpec TalkSpec FailSpec KeySpec ProgProofs VersionProofs GpgMore GpgMoreSpec GpgMoreProofs Toy Demo.

(** ** C78 *)
(** Lines and white space, as everywhere in the program *)
Theorem C78_lines : forall t ls, broken t ls <-> splitlines t = ls.
Proof. exact @c78_lines. Qed.
Print Assumptions C78_lines.
Theorem C78_white_space : forall s t, trimmed s t <-> strip s = t.
Proof. exact @c78_strip. Qed.
Print Assumptions C78_white_space.
(** The packets are the ones that gpg wrote.  It is an error if there are none, or if something
    comes before the first one. *)
Theorem C78_packets : forall out, match packets_of out with
  | Ok ps => ps <> [] /\ packets_written out ps
  | Err TypeError => packets_written out []
  | Err AssertionError => exists raw ls before line after, broken out raw /\ Forall2 trimmed raw ls /\ ls = before ++ line :: after /\
      Forall passed_over before /\ detail line
  | Err _ => False
  end.
Proof. exact @c78_packets. Qed.
Print Assumptions C78_packets.
Theorem C78_packets_unique : forall out ps, packets_written out ps -> ps <> [] -> packets_of out = Ok ps.
Proof. exact @c78_packets_unique. Qed.
Print Assumptions C78_packets_unique.
(** The commands *)
Theorem C78_list_packets : forall (E : Env) g data s s' ps, arun (list_packets g data) s = (s', Ok ps) ->
  exists r out, did s s' [(process g [L "--list-packets"] (Some data) None, r)] /\ g_ret r = 0%Z /\ utf8 (g_out r) = Some out /\
    ps <> [] /\ packets_written out ps /\ a_logs s' = a_logs s.
Proof. exact @c78_list_packets. Qed.
Print Assumptions C78_list_packets.
(** They are listed whenever gpg succeeds, whatever it says besides. *)
Theorem C78_list_packets_returns : forall (E : Env) g data s out ps,
  let r := snd (gpg (ring_content s (ring_of g)) (begin_of g ++ [L "--list-packets"]) (Some data) None) in
  g_ret r = 0%Z -> utf8 (g_err r) <> None -> utf8 (g_out r) = Some out -> packets_written out ps -> ps <> [] ->
  snd (arun (list_packets g data) s) = Ok ps.
Proof. exact @c78_list_packets_returns. Qed.
Print Assumptions C78_list_packets_returns.
Theorem C78_public_key_packets : forall (E : Env) g kh s s' ps, arun (list_public_key_packets g kh) s = (s', Ok ps) ->
  exists r1 r2 k out,
    did s s' [(process g [L "--export-options=export-minimal"; L "--export"; kh] None None, r1); (process g [L "--list-packets"] (Some k) None, r2)] /\
    put_out r1 k /\ g_err r1 = [] /\ g_ret r2 = 0%Z /\ utf8 (g_out r2) = Some out /\ ps <> [] /\ packets_written out ps.
Proof. exact @c78_public_key_packets. Qed.
Print Assumptions C78_public_key_packets.
Theorem C78_secret_key_packets : forall (E : Env) g kh s s' ps, arun (list_secret_key_packets g kh) s = (s', Ok ps) ->
  exists pass r1 r2 k out, pass_args pass /\
    did s s' [(process g (pass ++ [L "--export-options=export-minimal"; L "--export-secret-key"; kh]) None None, r1);
              (process g [L "--list-packets"] (Some k) None, r2)] /\
    put_out r1 k /\ g_err r1 = [] /\ g_ret r2 = 0%Z /\ utf8 (g_out r2) = Some out /\ ps <> [] /\ packets_written out ps.
Proof. exact @c78_secret_key_packets. Qed.
Print Assumptions C78_secret_key_packets.
(** A signature is what gpg puts out for the data and the key. *)
Theorem C78_sign : forall (E : Env) g data kh s s' sig, arun (gpg_sign g data kh) s = (s', Ok sig) ->
  exists pass r, pass_args pass /\ did s s' [(process g (pass ++ [L "--detach-sign"; L "-u"; kh]) (Some data) None, r)] /\ put_out r sig /\ a_logs s' = a_logs s.
Proof. exact @c78_sign. Qed.
Print Assumptions C78_sign.
(** It is given whenever gpg succeeds, whatever gpg says besides. *)
Theorem C78_sign_returns : forall (E : Env) g data kh s ns pass sig, tells_version (gp_path g) ns ->
  (from_2_1 ns /\ pass = [L "--passphrase"; L "123"; L "--pinentry-mode=loopback"]) \/ (~ from_2_1 ns /\ pass = [L "--passphrase"; L "123"]) ->
  put_out (snd (gpg (ring_content s (ring_of g)) (begin_of g ++ pass ++ [L "--detach-sign"; L "-u"; kh]) (Some data) None)) sig ->
  snd (arun (gpg_sign g data kh) s) = Ok sig.
Proof. exact @c78_sign_returns. Qed.
Print Assumptions C78_sign_returns.
(** A signature is only said to be good if gpg succeeded with this data and this signature, and
    the key is the one that gpg named. *)
Theorem C78_verify : forall (E : Env) g data sig s s' kh, arun (gpg_verify g data sig) s = (s', Ok kh) ->
  let args := [L "--verify"; L "<tmpfile>"; L "-"] in
  let run := gpg (ring_content s (ring_of g)) (begin_of g ++ args) (Some data) (Some sig) in
  exists err more, did s s' ((process g args (Some data) (Some sig), snd run) :: more) /\ g_ret (snd run) = 0%Z /\
    utf8 (g_err (snd run)) = Some err /\ utf8 (g_out (snd run)) <> None /\ reported (fst run) (begin_of g) err kh /\ a_logs s' = a_logs s.
Proof. exact @c78_verify. Qed.
Print Assumptions C78_verify.
(** The agent of the same home directory is stopped, if there is one: from version 2.0 on. *)
Theorem C78_killagent : forall (E : Env) g s s' ns, tells_version (gp_path g) ns -> arun (killagent g) s = (s', Ok tt) ->
  (~ from_2_0 ns /\ s' = s) \/
  (from_2_0 ns /\ exists p r, located (L "gpg-connect-agent") p /\
    did s s' [(GCall (ring_of g) ([p; L "--no-autostart"] ++ match gp_home g with Some (c :: h) => [L "--homedir"; c :: h] | _ => [] end ++ [L "KILLAGENT"]) None None, r)] /\
    a_logs s' = a_logs s).
Proof. exact @c78_killagent. Qed.
Print Assumptions C78_killagent.
(** gpg-agent.conf is written for versions from 2.0 on and before 2.1.12. *)
Theorem C78_agent_conf : forall (E : Env) p ns, tells_version p ns ->
  exists b, wants_agent_conf p = Ok b /\ (b = true <-> from_2_0 ns /\ ~ from_2_1_12 ns).
Proof. exact @c78_agent_conf. Qed.
Print Assumptions C78_agent_conf.
(** Whether a version can do EdDSA is read from its own list of algorithms. *)
Theorem C78_eddsa : forall (E : Env) p b, supports_eddsa p = Ok b <->
  exists out, version_text p out /\ (b = true <-> exists r, pubkey_line out r /\ names_eddsa r).
Proof. exact @c78_eddsa. Qed.
Print Assumptions C78_eddsa.
(** The text of a failure has the command, the exit code and all that gpg wrote. *)
Theorem C78_failure : forall ret cmd out err extra outs errs, broken out outs -> broken err errs ->
  let indented := fun ls => concat (map (fun l => [10%N] ++ L "  " ++ l) ls) in
  exists d, written_Z ret d /\
  failure_text ret cmd out err extra =
    L "GPG Command '" ++ cmd ++ L "' retcode=" ++ d ++ [10%N] ++ L "stdout:" ++ indented outs ++ [10%N] ++ L "stderr:" ++ indented errs ++
    match extra with Some (c :: x) => [10%N] ++ c :: x | _ => [] end.
Proof. exact @c78_failure. Qed.
Print Assumptions C78_failure.

(** A user id may contain a character that Python takes for the end of a line (U+2028): then it
    can pretend to be another packet, although gpg wrote one line for it. *)
Definition odd_user : text := L ":user ID packet: ""bob" ++ [8232%N] ++ L ":public key packet:""".
Theorem C78_one_line_each_refuted : exists out ps, ~ In 10%N out /\ packets_of out = Ok ps /\ length ps = 2%nat.
Proof.
  exists odd_user. eexists. split; [vm_compute; intuition discriminate|]. split; [vm_compute; reflexivity|reflexivity].
Qed.
Print Assumptions C78_one_line_each_refuted.

(** gpg --list-packets as it is written *)
Definition nl : text := [10%N].
Definition listing : text :=
  L "# off=0 ctb=99 tag=6" ++ nl ++ L ":public key packet:" ++ nl ++ [9%N] ++ L "version 4, algo 1" ++ nl ++ [9%N] ++ L "keyid: 0123" ++ nl ++
  L "# off=272 ctb=b4 tag=13" ++ nl ++ L ":user ID packet: ""bob: b""" ++ nl.
Definition listed : list packet :=
  [(L "public key packet", [], [L "version 4, algo 1"; L "keyid: 0123"]); (L "user ID packet", L """bob: b""", [])].
Example C78_example : packets_of listing = Ok listed /\ packets_of (L "gpg") = Err AssertionError /\ packets_of [] = Err TypeError /\
  splitlines (L "a" ++ [13; 10]%N ++ L "b" ++ [13%N]) = [L "a"; L "b"] /\ splitlines ([10; 10]%N) = [[]; []] /\
  strip ([32; 9]%N ++ L "a b" ++ [160%N]) = L "a b" /\
  failure_text (-2) (L "gpg --x") (L "o" ++ nl ++ L "p") (L "e") (Some (L "spec")) =
    L "GPG Command 'gpg --x' retcode=-2" ++ nl ++ L "stdout:" ++ nl ++ L "  o" ++ nl ++ L "  p" ++ nl ++ L "stderr:" ++ nl ++ L "  e" ++ nl ++ L "spec".
Proof. vm_compute. repeat split; reflexivity. Qed.

(** A computer whose gpg does little more than list packets, sign and check signatures *)
Definition signature_of (data : bytes) : bytes := L "SIG" ++ data.
Definition small_gpg (argv : list text) (inp tmp : option bytes) : gres :=
  let said w := mem_text w argv in
  if said (L "--list-packets") then GRes 0 listing []
  else if said (L "--export") || said (L "--export-secret-key") then GRes 0 (L "KEY") []
  else if said (L "--detach-sign") then GRes 0 (signature_of (match inp with Some d => d | None => [] end)) []
  else if said (L "--verify") then
    match inp, tmp with
    | Some d, Some sig => if text_eqb sig (signature_of d) then GRes 0 [] (L "gpg: using RSA key 0123456789ABCDEF") else GRes 1 [] (L "gpg: BAD")
    | _, _ => GRes 2 [] []
    end
  else GRes 0 [] [].
Definition small (version : text) : Env := {|
  sha256 := @sha256 E0; dumps := @dumps E0; load := @load E0; uni_lower := @uni_lower E0; uni_alnum := @uni_alnum E0;
  parseaddr := @parseaddr E0; getaddresses := @getaddresses E0; formataddr := @formataddr E0; parsedate_tz := @parsedate_tz E0;
  mktime := @mktime E0; re_match := @re_match E0; ring := unit; ring0 := tt;
  gpg := fun r argv inp tmp => (r, small_gpg argv inp tmp);
  flatten := @flatten E0; parse_bytes := @parse_bytes E0; env_path := L "/bin";
  is_file := fun p => text_eqb p (L "/bin/gpg") || text_eqb p (L "/bin/gpg-connect-agent");
  version_run := fun _ => GRes 0 version [];
  uuid_hex := @uuid_hex E0; clock := @clock E0; basedir := @basedir E0; set_order := @set_order E0; mimetext := @mimetext E0; formatdate := @formatdate E0
|}.
Definition v22 : text := L "gpg (GnuPG) 2.2.40" ++ nl ++ L "Home: /x" ++ nl ++ L "Pubkey: RSA, ECDSA, EdDSA" ++ nl.
Definition v20 : text := L "gpg (GnuPG) 2.0.30" ++ nl ++ L "Home: /eddsa" ++ nl ++ L "Pubkey: RSA, ELG, DSA" ++ nl.
Definition v14 : text := L "gpg (GnuPG) 1.4.23" ++ nl.
Definition here : bingpg := BinGPG (Some (L "/h")) (L "/bin/gpg").
Definition result_in (v : text) {A} (p : forall E : Env, prog (cop) A) : result A := snd (@arun (small v) A (p (small v)) (@ast0 (small v))).
Definition started_in (v : text) {A} (p : forall E : Env, prog (cop) A) : list (list text) := map gc_argv (@a_trace (small v) (fst (@arun (small v) A (p (small v)) (@ast0 (small v))))).
Example C78_example_commands :
  result_in v22 (fun E => list_packets here (L "KEY")) = Ok listed /\
  result_in v22 (fun E => list_public_key_packets here (L "0123")) = Ok listed /\
  result_in v22 (fun E => @list_secret_key_packets E here (L "0123")) = Ok listed /\
  result_in v22 (fun E => @gpg_sign E here (L "data") (L "0123")) = Ok (L "SIGdata") /\
  result_in v22 (fun E => @gpg_verify E here (L "data") (L "SIGdata")) = Ok (L "0123456789ABCDEF") /\
  result_in v22 (fun E => @gpg_verify E here (L "data") (L "SIGother")) = Err InvocationFailure /\
  started_in v22 (fun E => @killagent E here) = [[L "/bin/gpg-connect-agent"; L "--no-autostart"; L "--homedir"; L "/h"; L "KILLAGENT"]] /\
  started_in v14 (fun E => @killagent E here) = [] /\ result_in v14 (fun E => @killagent E here) = Ok tt.
Proof. vm_compute. repeat split; reflexivity. Qed.
Example C78_example_versions :
  @tells_version (small v22) (L "/bin/gpg") [2; 2; 40]%N /\ @wants_agent_conf (small v22) (L "/bin/gpg") = Ok false /\
  @wants_agent_conf (small v20) (L "/bin/gpg") = Ok true /\ @wants_agent_conf (small v14) (L "/bin/gpg") = Ok false /\
  @supports_eddsa (small v22) (L "/bin/gpg") = Ok true /\ @supports_eddsa (small v20) (L "/bin/gpg") = Ok false /\
  @supports_eddsa (small v14) (L "/bin/gpg") = Ok false.
Proof.
  split; [|vm_compute; repeat split; reflexivity].
  exists v22, [], [], (L "gpg"), (L "(GnuPG)"), [L "2"; L "2"; L "40"], (nl ++ L "Home: /x" ++ nl ++ L "Pubkey: RSA, ECDSA, EdDSA" ++ nl).
  split; [reflexivity|]. split; [reflexivity|]. split; [vm_compute; reflexivity|].
  split; [vm_compute; intuition discriminate|]. split; [vm_compute; intuition discriminate|].
  split; [|split; [discriminate|right; eexists; left; reflexivity]].
  change [L "2"; L "2"; L "40"] with (map dec_N [2; 2; 40]%N).
  repeat (constructor; [apply CliProofs.dec_N_written|]). constructor.
Qed.
