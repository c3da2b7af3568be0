(** C69: what gpg reports.  Statements only; proofs are in GpgText.v and GpgProofs.v, the
    vocabulary is in GpgSpec.v. *)
From Verif Require Import Base PyStr Base64 Env Prog Chain Gpg Mime States Recommendation Account Fs Api Spec PeerSpec RecSpec OutSpec Obs
  GpgSpec GpgText ProgProofs VersionProofs GpgProofs Toy Demo PropsOut.
#[local] Existing Instance E0.   (* for the examples *)

(** ** C69 *)
(** Decryption starts gpg once, with the encrypted part of the mail; what gpg puts out is the
    content of the mail; the keys it reports, in the form of gpg before 2.3, are the keys
    that are returned. *)
Theorem C69_decryption_reports_keys : forall (E : Env) s a m dm infos, reachable s -> answer s (ADecrypt a m) = Ok (ODecrypted dm infos) ->
  exists enc argv err, cipher_of m = Some enc /\ decrypt_command argv /\
    a_trace (after s (ADecrypt a m)) = [GCall (argv_home argv) argv (Some enc) None] ++ a_trace s /\
    g_ret (gpg_now s argv (Some enc)) = 0%Z /\ dm = opened_as m (g_out (gpg_now s argv (Some enc))) /\
    utf8 (g_err (gpg_now s argv (Some enc))) = Some err /\ forall ks, reports (splitlines err) ks -> infos = ks.
Proof. exact @c69_keys. Qed.
Print Assumptions C69_decryption_reports_keys.

(** Whenever gpg decrypts a mail (in ASCII armor) and reports so in this form, the call returns. *)
Theorem C69_decryption_returns_partial : forall (E : Env) s a m enc, reachable s -> gpg_ready s a -> is_encrypted m = Ok true ->
  cipher_of m = Some enc -> is_ascii enc = true ->
  (forall argv, decrypt_command argv -> g_ret (gpg_now s argv (Some enc)) = 0%Z /\
     exists err ks, utf8 (g_err (gpg_now s argv (Some enc))) = Some err /\ reports (splitlines err) ks) ->
  exists dm infos, answer s (ADecrypt a m) = Ok (ODecrypted dm infos).
Proof. exact @c69_returns. Qed.
Print Assumptions C69_decryption_returns_partial.

(** The examples: an encrypted mail, and gpg programs that write notes. *)
Definition noisy (notes : bytes) : Env := toy_with notes (fun n => (1000000 + Z.of_nat n) * sec)%Z.
Definition some_key : text := key_line (L "3072") (L "RSA") (L "0123456789ABCDEF") (L "2020-01-01").
Definition sealed_mail : msg := enc_mail bob alice (L "1000") (L "<1>") [] [].
Definition opened (notes : bytes) : result (list (text * text)) :=
  match @answer (noisy notes) (@after_all (noisy notes) (@ast0 (noisy notes)) [add_a]) (ADecrypt (L "a") sealed_mail) with
  | Ok (ODecrypted _ infos) => Ok infos
  | Ok _ => Err TypeError
  | Err e => Err e
  end.
Definition nl : text := [10%N].

(** the mail as account "a" gets it, with a gpg that writes [notes] *)
Definition before (notes : bytes) : @ast (noisy notes) := @after_all (noisy notes) (@ast0 (noisy notes)) [add_a].
(** the command gpg was started with *)
Definition last_command (notes : bytes) : list text :=
  match @a_trace (noisy notes) (@after (noisy notes) (before notes) (ADecrypt (L "a") sealed_mail)) with
  | GCall _ argv _ _ :: _ => argv
  | _ => []
  end.

(** gpg decrypts the mail, but the call fails: nothing follows the line about the key; a line
    that is not a user id follows. *)
Theorem C69_no_user_id_refuted : exists (E : Env) s a m enc argv e, @reached E s /\ cipher_of m = Some enc /\
  @a_trace E (@after E s (ADecrypt a m)) = [GCall (argv_home argv) argv (Some enc) None] ++ @a_trace E s /\
  g_ret (@gpg_now E s argv (Some enc)) = 0%Z /\ g_err (@gpg_now E s argv (Some enc)) = key_line (L "3072") (L "RSA") (L "0123456789ABCDEF") (L "2020-01-01") /\
  @answer E s (ADecrypt a m) = Err e /\ e = IndexError.
Proof.
  exists (noisy some_key), (before some_key), (L "a"), sealed_mail. eexists _. exists (last_command some_key), IndexError.
  split; [exists [add_a]; reflexivity|]. split; [vm_compute; reflexivity|]. repeat split; vm_compute; reflexivity.
Qed.
Print Assumptions C69_no_user_id_refuted.

Definition some_note : bytes := some_key ++ nl ++ L "gpg: some note".
Theorem C69_other_line_refuted : exists (E : Env) s a m enc argv e, @reached E s /\ cipher_of m = Some enc /\
  @a_trace E (@after E s (ADecrypt a m)) = [GCall (argv_home argv) argv (Some enc) None] ++ @a_trace E s /\
  g_ret (@gpg_now E s argv (Some enc)) = 0%Z /\
  g_err (@gpg_now E s argv (Some enc)) = key_line (L "3072") (L "RSA") (L "0123456789ABCDEF") (L "2020-01-01") ++ [10%N] ++ L "gpg: some note" /\
  @answer E s (ADecrypt a m) = Err e /\ e = UnboundLocalError.
Proof.
  exists (noisy some_note), (before some_note), (L "a"), sealed_mail. eexists _. exists (last_command some_note), UnboundLocalError.
  split; [exists [add_a]; reflexivity|]. split; [vm_compute; reflexivity|]. repeat split; vm_compute; reflexivity.
Qed.
Print Assumptions C69_other_line_refuted.

(** gpg from 2.3 on names the key in another way: the call returns the mail and no key. *)
Definition newer : bytes := L "gpg: encrypted with rsa3072 key, ID 0123456789ABCDEF, created 2020-01-01" ++ nl ++ uid_line (L "Alice <alice@x.org>").
Theorem C69_newer_gpg_refuted : exists (E : Env) s a m enc argv dm infos, @reached E s /\ cipher_of m = Some enc /\
  @a_trace E (@after E s (ADecrypt a m)) = [GCall (argv_home argv) argv (Some enc) None] ++ @a_trace E s /\
  g_ret (@gpg_now E s argv (Some enc)) = 0%Z /\
  g_err (@gpg_now E s argv (Some enc)) =
    L "gpg: encrypted with rsa3072 key, ID 0123456789ABCDEF, created 2020-01-01" ++ [10%N] ++ uid_line (L "Alice <alice@x.org>") /\
  @answer E s (ADecrypt a m) = Ok (ODecrypted dm infos) /\ infos = [].
Proof.
  exists (noisy newer), (before newer), (L "a"), sealed_mail. eexists _. exists (last_command newer). eexists _, [].
  split; [exists [add_a]; reflexivity|]. split; [vm_compute; reflexivity|]. repeat split; vm_compute; reflexivity.
Qed.
Print Assumptions C69_newer_gpg_refuted.

(** A key whose user id gpg does not print is returned with the user id of another key. *)
Definition nameless : bytes := join nl [some_key; uid_line (L "Alice"); key_line (L "2048") (L "ELG") (L "FEDCBA9876543210") (L "2019-12-31"); L "gpg: some note"].
Theorem C69_wrong_user_id_refuted : exists (E : Env) s a m enc argv dm infos, @reached E s /\ cipher_of m = Some enc /\
  @a_trace E (@after E s (ADecrypt a m)) = [GCall (argv_home argv) argv (Some enc) None] ++ @a_trace E s /\
  g_ret (@gpg_now E s argv (Some enc)) = 0%Z /\
  splitlines (g_err (@gpg_now E s argv (Some enc))) =
    [key_line (L "3072") (L "RSA") (L "0123456789ABCDEF") (L "2020-01-01"); uid_line (L "Alice");
     key_line (L "2048") (L "ELG") (L "FEDCBA9876543210") (L "2019-12-31"); L "gpg: some note"] /\
  @answer E s (ADecrypt a m) = Ok (ODecrypted dm infos) /\ infos = [(L "0123456789ABCDEF", L "Alice"); (L "FEDCBA9876543210", L "Alice")].
Proof.
  exists (noisy nameless), (before nameless), (L "a"), sealed_mail. eexists _. exists (last_command nameless). eexists _, _.
  split; [exists [add_a]; reflexivity|]. split; [vm_compute; reflexivity|]. repeat (split; [vm_compute; reflexivity|]). vm_compute; reflexivity.
Qed.
Print Assumptions C69_wrong_user_id_refuted.

(** A mail encrypted to two keys. *)
Definition two_keys : list text := [L "gpg: some note"; some_key; uid_line (L "Alice <alice@x.org>"); L "  ";
  key_line (L "2048") (L "ELG") (L "FEDCBA9876543210") (L "2019-12-31"); uid_line (L "Bob")].
Definition two_notes : bytes := join nl two_keys ++ nl.
Example C69_example :
  @reachable (noisy two_notes) (before two_notes) /\ @gpg_ready (noisy two_notes) (before two_notes) (L "a") /\
  @is_encrypted (noisy two_notes) sealed_mail = Ok true /\
  (exists enc, cipher_of sealed_mail = Some enc /\ is_ascii enc = true) /\
  utf8 two_notes = Some two_notes /\
  reports (splitlines two_notes) [(L "0123456789ABCDEF", L "Alice <alice@x.org>"); (L "FEDCBA9876543210", L "Bob")] /\
  g_err (@gpg_now (noisy two_notes) (before two_notes) (last_command two_notes) (cipher_of sealed_mail)) = two_notes /\
  opened two_notes = Ok [(L "0123456789ABCDEF", L "Alice <alice@x.org>"); (L "FEDCBA9876543210", L "Bob")].
Proof.
  split; [exact (reachable_after_all ast0 [add_a] reachable_init)|]. split.
  { eexists _, _, (L "gpg"), [2%N; 2%N; 40%N]. split; [vm_compute; reflexivity|]. split; [vm_compute; discriminate|].
    split; [apply located_found; vm_compute; reflexivity|]. eapply tells_printed; [vm_compute; reflexivity|vm_compute; reflexivity|vm_compute; reflexivity|discriminate]. }
  split; [vm_compute; reflexivity|]. split; [eexists; split; vm_compute; reflexivity|]. split; [vm_compute; reflexivity|]. split.
  { replace (splitlines two_notes) with two_keys by (vm_compute; reflexivity). unfold two_keys, some_key.
    assert (N1 : forall x y, L "gpg: some note" <> x ++ L "-bit " ++ y).
    { intros x y H. assert (I : In 45%N (x ++ L "-bit " ++ y)) by (apply in_or_app; right; now left). rewrite <- H in I.
      vm_compute in I. repeat destruct I as [I|I]; try discriminate I; exact I. }
    assert (N2 : forall u, ~ In 34%N u -> (forall r, u <> 34%N :: r) /\ (forall r, u <> r ++ [34%N])).
    { intros u Hu. split; intros r ->; apply Hu; [now left|apply in_or_app; right; now left]. }
    assert (N3 : ~ In 34%N (L "Alice <alice@x.org>")) by (intros I; vm_compute in I; repeat destruct I as [I|I]; try discriminate I; exact I).
    assert (N4 : ~ In 34%N (L "Bob")) by (intros I; vm_compute in I; repeat destruct I as [I|I]; try discriminate I; exact I).
    apply rp_other; [now right|].
    apply rp_key; try (apply all_of_forallb; [discriminate|reflexivity]); try now apply N2.
    apply rp_other; [left; intros [r H]; discriminate H|].
    apply rp_key; try (apply all_of_forallb; [discriminate|reflexivity]); try now apply N2.
    apply rp_end. }
  split; vm_compute; reflexivity.
Qed.
