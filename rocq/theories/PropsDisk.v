(** C83: directories, files and permissions.  Statements only; proofs are in DiskProofs.v, the
    vocabulary is in DiskSpec.v. *)
From Verif Require Import Base PyStr Env Prog Chain Gpg Mime States Recommendation Account Fs Api Spec PeerSpec CliSpec GpgSpec GpgMoreSpec ProgProofs
  VersionProofs Disk DiskSpec DiskProofs Toy Demo PropsCli PropsProg.

(** The full claim: creating a wrapper for gpg or opening a state directory alters nothing that
    was there, makes the home directory of gpg accessible to its owner only, writes
    gpg-agent.conf exactly for the versions from 2.0 to before 2.1.12, and leaves no temporary
    files; also if the process dies at any time.

    Missing: what a process that died has left is never put right.  The home directory may keep
    the usual permissions and gpg-agent.conf may stay incomplete (refuted below), and a
    temporary file stays on a full disk. *)

(** Whenever the process dies, what was there is there and the same.  New are only: the home
    directory and missing directories above it, and a file gpg-agent.conf in it with a part of
    its line. *)
Theorem C83_any_time : forall (E : Env) h gpgbin s s', dcrash (new_bingpg (Some h) gpgbin) s s' ->
  kept s s' /\
  forall q n, added s s' q n ->
    (usual_dir s n /\ (q = h \/ above q h)) \/ (q = h /\ owner_dir n) \/
    (q = conf_in h /\ exists x y, conf_line = x ++ y /\ usual_file s x n).
Proof. exact @c83_any_time. Qed.
Print Assumptions C83_any_time.

(** Once it is done, a home directory that was missing is accessible to its owner only, the file
    is there exactly for those versions or if it was there before, and doing it again changes
    nothing, even if more files have appeared. *)
Theorem C83_done_partial : forall (E : Env) h gpgbin s s' g, drun (new_bingpg (Some h) gpgbin) s = (s', Ok g) ->
  exists p, located gpgbin p /\ g = BinGPG (Some (path_text h)) p /\ mk_bingpg (Some (path_text h)) gpgbin = Ok g /\
    kept s s' /\
    (d_node s h = None -> exists n, d_node s' h = Some n /\ owner_dir n) /\
    (forall ns, tells_version p ns -> d_node s (conf_in h) = None ->
       (from_2_0 ns /\ ~ from_2_1_12 ns /\ exists n, d_node s' (conf_in h) = Some n /\ usual_file s conf_line n) \/
       (~ (from_2_0 ns /\ ~ from_2_1_12 ns) /\ d_node s' (conf_in h) = None)) /\
    (forall q n, q <> h -> q <> conf_in h -> added s s' q n -> d_node s h = None /\ above q h /\ usual_dir s n) /\
    (forall s'', kept s' s'' -> drun (new_bingpg (Some h) gpgbin) s'' = (s'', Ok g)).
Proof. exact @c83_done. Qed.
Print Assumptions C83_done_partial.

(** It can be done wherever directories can be made and there is room for the line. *)
Theorem C83_can : forall (E : Env) h gpgbin p ns s, located gpgbin p -> tells_version p ns -> makeable s h -> length conf_line <= d_room s ->
  exists s', drun (new_bingpg (Some h) gpgbin) s = (s', Ok (BinGPG (Some (path_text h)) p)).
Proof. exact @c83_can. Qed.
Print Assumptions C83_can.

(** For the keyring of the system, and without a program, nothing is touched. *)
Theorem C83_no_home : forall (E : Env) gpgbin s s', dcrash (new_bingpg None gpgbin) s s' -> s' = s.
Proof. exact @c83_no_home. Qed.
Print Assumptions C83_no_home.
Theorem C83_not_found : forall (E : Env) home gpgbin s s', (forall p, ~ located gpgbin p) -> dcrash (new_bingpg home gpgbin) s s' ->
  s' = s /\ drun (new_bingpg home gpgbin) s = (s, Err ValueError).
Proof. exact @c83_not_found. Qed.
Print Assumptions C83_not_found.

(** The state directory *)
Theorem C83_states : forall dir s,
  (forall s', dcrash (new_states dir) s s' -> kept s s' /\ forall q n, added s s' q n -> usual_dir s n /\ (q = L "blocks" :: dir \/ above q (L "blocks" :: dir))) /\
  (makeable s (L "blocks" :: dir) -> exists s', drun (new_states dir) s = (s', Ok tt) /\ exists m, d_node s' (L "blocks" :: dir) = Some (NDir m)) /\
  (forall s' s'', drun (new_states dir) s = (s', Ok tt) -> kept s' s'' -> drun (new_states dir) s'' = (s'', Ok tt)).
Proof. exact @c83_states. Qed.
Print Assumptions C83_states.

(** A temporary file is new, is accessible to its owner only, has the content when the body
    starts, and is gone at the end whatever the body did, if the content fit on the disk. *)
Theorem C83_temp_partial : forall A data (body : path -> prog dop A) s s' r, drun (temp_written_file data body) s = (s', r) ->
  (s' = s /\ exists e, r = Err e) \/
  exists f, (exists n, f = n :: [L "tmp"]) /\ d_node s f = None /\
    ((d_room s < length data /\ (exists e, r = Err e) /\ same_but f s s' /\ exists n, d_node s' f = Some n /\ owner_file (firstn (d_room s) data) n) \/
     (length data <= d_room s /\ exists s1 s2 rb, same_but f s s1 /\ (exists n, d_node s1 f = Some n /\ owner_file data n) /\ drun (body f) s1 = (s2, rb) /\
        forall m c, d_node s2 f = Some (NFile m c) -> r = rb /\ d_node s' f = None /\ same_but f s2 s')).
Proof. exact @c83_temp. Qed.
Print Assumptions C83_temp_partial.

(** The file for generating a key: the disk is the same afterwards, and the report of a failure
    quotes exactly what was asked for.  Meanwhile there is at most one new file, accessible to
    its owner only. *)
Theorem C83_key_file : forall spec runs s s' r, drun (key_in_file spec runs) s = (s', r) -> length spec <= d_room s ->
  same_disk s s' /\ forall x, r = Ok x -> (runs spec = true /\ x = None) \/ (runs spec = false /\ x = Some spec).
Proof. exact @c83_key_file. Qed.
Print Assumptions C83_key_file.
Theorem C83_key_file_any_time : forall spec runs s s', dcrash (key_in_file spec runs) s s' ->
  same_disk s s' \/
  exists f, (exists n, f = n :: [L "tmp"]) /\ d_node s f = None /\ same_but f s s' /\ exists x y n, spec = x ++ y /\ d_node s' f = Some n /\ owner_file x n.
Proof. exact @c83_key_file_any_time. Qed.
Print Assumptions C83_key_file_any_time.

(** A disk with /home and /tmp, and the usual umask 022 *)
Definition disk1 : disk :=
  Disk (fun p => if path_eqb p [] || path_eqb p [L "home"] then Some (NDir 493) else if path_eqb p [L "tmp"] then Some (NDir 511) else None) 18 100 [L "t1"; L "t2"].
Definition home1 : path := [L "a"; L "gpg"; L "muacrypt"; L "home"].
Definition gpg2030 : Env := versioned (L "gpg (GnuPG) 2.0.30").
Definition gpg2240 : Env := versioned (L "gpg (GnuPG) 2.2.40").

(** Dying before the permissions are set leaves the usual ones, and creating the wrapper again
    does not change them. *)
Theorem C83_private_refuted : exists (E : Env) h s s1 s2 g, d_node s h = None /\ dcrash (new_bingpg (Some h) (L "gpg")) s s1 /\
  drun (new_bingpg (Some h) (L "gpg")) s1 = (s2, Ok g) /\ d_node s2 h = Some (NDir 493).
Proof.
  pose (s1 := after_dops 7 (@new_bingpg gpg2240 (Some home1) (L "gpg")) disk1).
  exists gpg2240, home1, disk1, s1, (fst (drun (@new_bingpg gpg2240 (Some home1) (L "gpg")) s1)), (BinGPG (Some (path_text home1)) (L "gpg")).
  split; [vm_compute; reflexivity|]. split; [apply after_dops_crash|].
  split; [rewrite (surjective_pairing (drun _ s1)); cbn [fst]; f_equal; vm_compute; reflexivity|vm_compute; reflexivity].
Qed.
Print Assumptions C83_private_refuted.
(** Dying between the opening of gpg-agent.conf and the writing leaves it empty for good. *)
Theorem C83_conf_refuted : exists (E : Env) h s s1 s2 g, d_node s (conf_in h) = None /\ dcrash (new_bingpg (Some h) (L "gpg")) s s1 /\
  drun (new_bingpg (Some h) (L "gpg")) s1 = (s2, Ok g) /\ d_node s2 (conf_in h) = Some (NFile 420 []).
Proof.
  pose (s1 := after_dops 10 (@new_bingpg gpg2030 (Some home1) (L "gpg")) disk1).
  exists gpg2030, home1, disk1, s1, (fst (drun (@new_bingpg gpg2030 (Some home1) (L "gpg")) s1)), (BinGPG (Some (path_text home1)) (L "gpg")).
  split; [vm_compute; reflexivity|]. split; [apply after_dops_crash|].
  split; [rewrite (surjective_pairing (drun _ s1)); cbn [fst]; f_equal; vm_compute; reflexivity|vm_compute; reflexivity].
Qed.
Print Assumptions C83_conf_refuted.
(** The source says that creating the directory fails if the directory above it is missing.  It
    does not. *)
Theorem C83_basedir_refuted : exists (E : Env) h s s' g, d_node s (tl h) = None /\ drun (new_bingpg (Some h) (L "gpg")) s = (s', Ok g) /\
  d_node s' (tl h) = Some (NDir 493).
Proof.
  exists gpg2240, home1, disk1, (fst (drun (@new_bingpg gpg2240 (Some home1) (L "gpg")) disk1)), (BinGPG (Some (path_text home1)) (L "gpg")).
  split; [vm_compute; reflexivity|].
  split; [rewrite (surjective_pairing (drun _ disk1)); cbn [fst]; f_equal; vm_compute; reflexivity|vm_compute; reflexivity].
Qed.
Print Assumptions C83_basedir_refuted.
(** On a full disk a temporary file stays. *)
Theorem C83_temp_left_refuted : exists s spec s' r f, drun (key_in_file spec (fun _ => true)) s = (s', r) /\ d_node s f = None /\
  d_node s' f = Some (NFile 384 []).
Proof.
  exists (with_room disk1 0), (L "Key-Type: RSA"), (fst (drun (key_in_file (L "Key-Type: RSA") (fun _ => true)) (with_room disk1 0))),
    (snd (drun (key_in_file (L "Key-Type: RSA") (fun _ => true)) (with_room disk1 0))), [L "t1"; L "tmp"].
  split; [apply surjective_pairing|]. split; vm_compute; reflexivity.
Qed.
Print Assumptions C83_temp_left_refuted.

(** A home directory with two directories above it is made, for two versions *)
Lemma made1 : makeable disk1 home1.
Proof.
  split; [exists 493%N; vm_compute; reflexivity|]. intros q n _ H. unfold disk1 in H. cbn [d_node] in H.
  destruct (path_eqb q [] || path_eqb q [L "home"]); [injection H as <-; eexists; reflexivity|].
  destruct (path_eqb q [L "tmp"]); [injection H as <-; eexists; reflexivity|discriminate].
Qed.
Example C83_example :
  makeable disk1 home1 /\ length conf_line <= d_room disk1 /\
  @tells_version gpg2030 (L "gpg") [2; 0; 30]%N /\ from_2_0 [2; 0; 30]%N /\ ~ from_2_1_12 [2; 0; 30]%N /\ from_2_1_12 [2; 2; 40]%N /\
  @located gpg2030 (L "gpg") (L "gpg") /\ (forall p, ~ @located gpg2030 (L "gpg9") p) /\
  (let r := drun (@new_bingpg gpg2030 (Some home1) (L "gpg")) disk1 in
   snd r = Ok (BinGPG (Some (L "/home/muacrypt/gpg/a")) (L "gpg")) /\ d_node (fst r) home1 = Some (NDir 448) /\
   d_node (fst r) (tl home1) = Some (NDir 493) /\ d_node (fst r) (conf_in home1) = Some (NFile 420 conf_line)) /\
  (let r := drun (@new_bingpg gpg2240 (Some home1) (L "gpg")) disk1 in
   d_node (fst r) home1 = Some (NDir 448) /\ d_node (fst r) (conf_in home1) = None).
Proof.
  split; [exact made1|]. split; [vm_compute; lia|].
  split; [eapply tells_printed; [vm_compute; reflexivity|vm_compute; reflexivity|vm_compute; reflexivity|discriminate]|].
  split; [right; exists 0%N, [30%N]; reflexivity|].
  split; [intros [[x [r [[= <- <-] H]]]|[[x [r [[= <- <-] H]]]|[x [r [[=] _]]]]]; lia|].
  split; [right; left; exists 2%N, [40%N]; split; [reflexivity|lia]|].
  split; [apply located_found; vm_compute; reflexivity|].
  split; [intros p H; apply located_found in H; vm_compute in H; discriminate H|].
  split; [|split; vm_compute; reflexivity]. split; [vm_compute; reflexivity|]. split; [vm_compute; reflexivity|]. split; vm_compute; reflexivity.
Qed.
(** A temporary file during and after a failing run of gpg *)
Example C83_temp_example :
  let p := key_in_file (L "Key-Type: RSA") (fun c => text_eqb c (L "other")) in
  dcrash p disk1 (after_dops 2 p disk1) /\ d_node (after_dops 2 p disk1) [L "t1"; L "tmp"] = Some (NFile 384 (L "Key-Type: RSA")) /\
  snd (drun p disk1) = Ok (Some (L "Key-Type: RSA")) /\ d_node (fst (drun p disk1)) [L "t1"; L "tmp"] = None /\
  snd (drun (new_states [L "m"; L "home"]) disk1) = Ok tt /\ d_node (fst (drun (new_states [L "m"; L "home"]) disk1)) [L "blocks"; L "m"; L "home"] = Some (NDir 493).
Proof.
  intros p. split; [apply after_dops_crash|]. split; [vm_compute; reflexivity|]. split; [vm_compute; reflexivity|].
  split; [vm_compute; reflexivity|]. split; vm_compute; reflexivity.
Qed.
