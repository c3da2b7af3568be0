(** C64 to C66: from one mail to the next.  Statements only; proofs are in TalkProofs.v, the
    vocabulary is in TalkSpec.v. *)
From Verif Require Import Base PyStr Base64 Env Prog Chain Gpg Mime States Recommendation Account Fs Api Spec PeerSpec RecSpec OutSpec CliSpec TalkSpec Obs
  TalkProofs GpgUse Toy Demo PropsOut PropsPeer.
#[local] Existing Instance E0.   (* for the examples *)

(** ** C64 *)
Theorem C64_key_is_sent : forall (E : Env) s a m o, reachable s -> answer s (AOutgoing a m) = Ok (OOutgoing o) ->
  hget_all m (L "Autocrypt") = [] -> (length (getaddresses (hget_all m (L "From"))) <= 1)%nat ->
  get_content_type m <> L "multipart/report" -> plain_address (sender_of m) ->
  exists c kh key, own_of s a = Some (c, kh) /\ own_public_key s (after s (AOutgoing a m)) kh key /\
    (is_bytes key = true -> key <> [] -> forall r, delivered (out_msg o) r ->
       sender_of r = sender_of m /\ hget r (L "Date") = hget m (L "Date") /\ carries r key (cf_pref c)).
Proof. exact @c64_sent. Qed.
Print Assumptions C64_key_is_sent.

Theorem C64_key_is_learned : forall (E : Env) s b x v r ign nd d key kh pref i, reachable s -> peer_of s b x = Some v ->
  sender_of r = norm x -> dated r d -> (pv_ac_timestamp v < Z.min d (clock (a_tick s)))%Z ->
  carries r key pref -> key <> [] -> imports_as b key kh -> kh <> [] ->
  answer s (AIncoming b r ign nd) = Ok (OIncoming (Some i)) ->
  knows (after s (AIncoming b r ign nd)) b x key kh pref (Z.min d (clock (a_tick s))).
Proof. exact @c64_received. Qed.
Print Assumptions C64_key_is_learned.

Theorem C64_exchange : forall (E : Env) s a m o, reachable s -> answer s (AOutgoing a m) = Ok (OOutgoing o) ->
  hget_all m (L "Autocrypt") = [] -> (length (getaddresses (hget_all m (L "From"))) <= 1)%nat ->
  get_content_type m <> L "multipart/report" -> plain_address (sender_of m) ->
  exists c kh key, own_of s a = Some (c, kh) /\ own_public_key s (after s (AOutgoing a m)) kh key /\
    (is_bytes key = true -> key <> [] -> forall s2 b x v r ign nd d kh2 i, reachable s2 -> peer_of s2 b x = Some v ->
       sender_of m = norm x -> dated m d -> (pv_ac_timestamp v < Z.min d (clock (a_tick s2)))%Z ->
       delivered (out_msg o) r -> imports_as b key kh2 -> kh2 <> [] ->
       answer s2 (AIncoming b r ign nd) = Ok (OIncoming (Some i)) ->
       knows (after s2 (AIncoming b r ign nd)) b x key kh2 (cf_pref c) (Z.min d (clock (a_tick s2)))).
Proof. exact @c64_exchange. Qed.
Print Assumptions C64_exchange.

Theorem C64_reply_is_recommended : forall (E : Env) s b x key kh pref d c kb, reachable s -> own_of s b = Some (c, kb) ->
  knows s b (norm x) key kh pref d -> kh <> [] ->
  recommended s b [x] false (if text_eqb (cf_pref c) mutual && text_eqb pref mutual then L "encrypt" else L "available") /\
  recommended s b [x] true (L "encrypt").
Proof. exact @c64_recommended. Qed.
Print Assumptions C64_reply_is_recommended.

Theorem C64_reply_uses_the_key : forall (E : Env) s b x key kh pref d m o, reachable s ->
  knows s b (norm x) key kh pref d -> kh <> [] ->
  answer s (AOutgoing b m) = Ok (OOutgoing o) -> In x (targets m) -> is_encrypted m = Ok false -> is_encrypted (out_msg o) = Ok true ->
  exists c own khs data enc, own_of s b = Some (c, own) /\ gpg_encrypted s (after s (AOutgoing b m)) khs own data enc /\
    m_body (out_msg o) = pgp_body enc /\ In kh khs.
Proof. exact @c64_encrypted. Qed.
Print Assumptions C64_reply_uses_the_key.

(** bob (account "b" on one computer) writes to alice (account "a" on another) *)
Definition bobs : ast := after_all ast0 [add_b; AMod (L "b") None None None (Some (L "mutual"))].
Definition alices : ast := after_all ast0 [add_a; AMod (L "a") None None None (Some (L "mutual"))].
Definition hello : msg := mail bob alice (L "1000") (L "<1>") [].
Definition hello_sent : msg := match answer bobs (AOutgoing (L "b") hello) with Ok (OOutgoing o) => out_msg o | _ => hello end.
Definition hello_got : msg := Msg ((L "Received", L "from b.org") :: m_headers hello_sent) (m_body hello_sent).
Definition reply : msg := mail alice bob (L "2000") (L "<2>") [].
Lemma E0_imports_own : @imports_as E0 (L "a") own_key (skipn 3 own_key).
Proof. intros s g s' H. apply E0_bingpg in H. destruct H as [->| ->]; vm_compute; reflexivity. Qed.
Example C64_example :
  (exists o, answer bobs (AOutgoing (L "b") hello) = Ok (OOutgoing o) /\ out_msg o = hello_sent) /\
  hget_all hello (L "Autocrypt") = [] /\ (length (getaddresses (hget_all hello (L "From"))) <= 1)%nat /\
  get_content_type hello <> L "multipart/report" /\ plain_address (sender_of hello) /\ is_bytes own_key = true /\
  delivered hello_sent hello_got /\ dated hello (1000 * sec) /\ sender_of hello = norm bob /\
  option_map pv_ac_timestamp (peer_of alices (L "a") bob) = Some 0%Z /\ (0 < Z.min (1000 * sec) (clock (a_tick alices)))%Z /\
  imports_as (L "a") own_key (skipn 3 own_key) /\
  (exists i, answer alices (in_a hello_got) = Ok (OIncoming (Some i))) /\
  (let s := after alices (in_a hello_got) in
   recommended s (L "a") [bob] false (L "encrypt") /\ In bob (targets reply) /\ is_encrypted reply = Ok false /\
   exists o, answer s (AOutgoing (L "a") reply) = Ok (OOutgoing o) /\ is_encrypted (out_msg o) = Ok true).
Proof.
  split; [eexists; split; vm_compute; reflexivity|]. split; [vm_compute; reflexivity|]. split; [vm_compute; lia|].
  split; [vm_compute; discriminate|]. split; [split; [vm_compute; intuition discriminate|vm_compute; reflexivity]|].
  split; [vm_compute; reflexivity|]. split; [repeat split; vm_compute; reflexivity|].
  do 3 (split; [vm_compute; reflexivity|]). split; [vm_compute; reflexivity|]. split; [exact E0_imports_own|].
  split; [eexists; vm_compute; reflexivity|]. cbv zeta. split; [vm_compute; reflexivity|]. split; [vm_compute; auto|].
  split; [vm_compute; reflexivity|]. eexists; split; vm_compute; reflexivity.
Qed.

(** ** C65 *)
Theorem C65_commands_of_each_call : forall (E : Env) s c g, ran s (after s c) g -> exists k, In k (may_ask c) /\ asks g k.
Proof. exact @c65. Qed.
Print Assumptions C65_commands_of_each_call.
Theorem C65_one_kind : forall g k k', asks g k -> asks g k' -> k = k'.
Proof. exact @c65_kind. Qed.
Print Assumptions C65_one_kind.
(** in particular *)
Theorem C65_secret_keys : forall (E : Env) s c g, ran s (after s c) g -> asks g KExportSecret ->
  (exists n r kh b md, c = AAdd n r kh b md) \/ (exists n y kh b r, c = ACliAdd n y kh b r) \/ exists n, c = AExportSec n.
Proof. exact @c65_secret. Qed.
Print Assumptions C65_secret_keys.
Theorem C65_deletion : forall (E : Env) s c g, ran s (after s c) g -> asks g KDelete -> exists n x kd pr, c = AImport n x kd pr.
Proof. exact @c65_delete. Qed.
Print Assumptions C65_deletion.
Theorem C65_generation : forall (E : Env) s c g, ran s (after s c) g -> asks g KGenerate ->
  (exists n r b md, c = AAdd n r None b md) \/ (exists n y b r, c = ACliAdd n y None b r).
Proof. exact @c65_generate. Qed.
Print Assumptions C65_generation.

Definition started_by (c : api) : list (list text) :=
  map (fun g => skipn 4 (gc_argv g)) (rev (firstn (length (a_trace (after alices c)) - length (a_trace alices)) (a_trace (after alices c)))).
Example C65_example :
  let pass := [L "--passphrase"; L "123"; L "--pinentry-mode=loopback"] in let minimal := L "--export-options=export-minimal" in let kh := skipn 3 keyB in
  started_by (AImport (L "a") None keyB (L "mutual")) =
    [[L "--skip-verify"; L "--import"]; [L "--skip-verify"; L "--with-colons"; L "--list-public-keys"; kh]; [L "--skip-verify"; L "--import"];
     [minimal; L "--export"; kh]; [L "--yes"; L "--delete-key"; kh]; [L "--skip-verify"; L "--import"]; [minimal; L "--export"; kh]; [minimal; L "--export"; kh]] /\
  started_by (AAdd (L "c") None None (L "gpg") (L "own")) = [pass ++ [L "--gen-key"; L "<tmpfile>"]; pass ++ [minimal; L "--export-secret-key"; toy_id 0]] /\
  started_by (AExportSec (L "a")) = [L "-a" :: pass ++ [minimal; L "--export-secret-key"; toy_id 0]] /\
  started_by (AMod (L "a") None None None (Some (L "nopreference"))) = [].
Proof. cbv zeta. split; [vm_compute; reflexivity|]. split; [vm_compute; reflexivity|]. split; vm_compute; reflexivity. Qed.

(** ** C66 *)
Theorem C66_target_keyhandles : forall (E : Env) s a xs, reachable s -> has_account s a ->
  exists l, arun (target_keyhandles (rec_peers a (map Some xs) None)) s = (s, Ok l) /\ NoDup (map fst l) /\
    forall y kh, In (y, kh) l <-> (exists x, In x xs /\ norm x = y) /\ exists v, peer_of s a y = Some v /\ pv_keyhandle v = kh.
Proof. exact @c66_handles. Qed.
Print Assumptions C66_target_keyhandles.
Theorem C66_agrees_with_encryption : forall (E : Env) s a m xs em khs l, reachable s -> answer s (AEncrypt a m xs) = Ok (OEncrypted em khs) ->
  arun (target_keyhandles (rec_peers a (map Some xs) None)) s = (s, Ok l) ->
  Forall2 (fun x kh => In (norm x, kh) l /\ kh <> [] \/
    In (norm x, []) l /\ exists c, own_of s a = Some (c, kh) /\ re_match (cf_regex c) (norm x) = Ok true) xs khs.
Proof. exact @c66_encrypted. Qed.
Print Assumptions C66_agrees_with_encryption.
Example C66_example :
  let s := after alices (in_a hello_got) in let kh := skipn 3 own_key in
  reachable s /\ has_account s (L "a") /\
  snd (arun (target_keyhandles (rec_peers (L "a") (map Some [bob; alice; L "BOB@b.org"]) None)) s) = Ok [(norm bob, kh); (norm alice, [])] /\
  exists em khs, answer s (AEncrypt (L "a") reply [bob; alice; L "BOB@b.org"]) = Ok (OEncrypted em khs) /\ hd [] khs = kh.
Proof.
  cbv zeta. split; [apply reachable_after, reachable_after_all, reachable_init|]. split; [vm_compute; discriminate|].
  split; [vm_compute; reflexivity|]. eexists; eexists; split; vm_compute; reflexivity.
Qed.
