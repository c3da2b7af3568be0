(** C29-C38: outgoing mail, encryption and gossip.  Statements only; proofs are in
    OutProofs*.v and GossipProofs.v, the vocabulary is in OutSpec.v. *)
From Verif Require Import Base PyStr Base64 Env Prog Chain Gpg Mime States Account Fs Api Spec PeerSpec RecSpec OutSpec
  OutProofs2 GossipProofs Toy Demo.
#[local] Existing Instance E0.   (* for the examples *)

(** The examples: alice (account "a", preferring encryption) knows the keys of bob and carol. *)
Definition known : list api :=
  [AAdd (L "a") (Some (L "alice@a.org")) None (L "gpg") (L "own"); AMod (L "a") None None None (Some (L "mutual"));
   in_a (ac_mail bob alice (L "1000") (L "<1>") (L "mutual") keyB);
   in_a (ac_mail carol alice (L "2000") (L "<2>") (L "mutual") keyC)].
Definition state1 : ast := after_all ast0 known.
Definition to_both (extra : list (text * text)) : msg := mail alice (L "bob@b.org, carol@c.org") (L "3000") (L "<3>") extra.
Definition sent (m : msg) : result (msg * option text) :=
  match answer state1 (AOutgoing (L "a") m) with Ok (OOutgoing o) => Ok (out_msg o, out_added o) | Ok _ => Err TypeError | Err e => Err e end.
Lemma state1_reached : reached state1. Proof. exists known. reflexivity. Qed.
Lemma state1_reachable : reachable state1. Proof. exact (reached_reachable _ state1_reached). Qed.
Definition yes : list (text * text) := [(L "Encrypt", L " yes")].
Definition no : list (text * text) := [(L "ENCRYPT", L "no"); (L "encrypt", L "no")].

(** a (short) Autocrypt header value as muacrypt writes it *)
Definition our_value (addr pref : text) (key : bytes) : text :=
  L "addr=" ++ addr ++ L "; " ++ (if nonempty pref then L "prefer-encrypt=" ++ pref ++ L "; " else []) ++
  L "keydata=" ++ [10%N] ++ L "  " ++ b64encode key.

(** ** C29 *)
(** A call that raises returns no mail at all, so only calls that return are looked at.  Also
    for a mail without ENCRYPT header when encryption is recommended. *)
Theorem C29_never_sent_in_clear : forall (E : Env) s a m o, reachable s -> answer s (AOutgoing a m) = Ok (OOutgoing o) ->
  control m = Some (L "yes") \/ (control m <> Some (L "no") /\ recommended s a (others m) false (L "encrypt")) ->
  is_encrypted (out_msg o) = Ok true /\
  ((is_encrypted m = Ok true /\ m_body (out_msg o) = m_body m) \/
   exists khs own clear data enc, m_body (out_msg o) = pgp_body enc /\
     m_body clear = m_body m /\ flatten clear = Ok data /\
     gpg_encrypted s (after s (AOutgoing a m)) khs own data enc).
Proof. exact @c29. Qed.
Print Assumptions C29_never_sent_in_clear.

Example C29_example : control (to_both yes) = Some (L "yes") /\ control (to_both []) = None /\
  recommended state1 (L "a") (others (to_both [])) false (L "encrypt") /\
  (exists m' v, sent (to_both yes) = Ok (m', v) /\ is_encrypted m' = Ok true) /\
  (exists m' v, sent (to_both []) = Ok (m', v) /\ is_encrypted m' = Ok true) /\
  (* a recipient without key: nothing is sent *)
  sent (mail alice (L "bob@b.org, dave@d.org") (L "3000") (L "<3>") yes) = Err ValueError.
Proof.
  split; [vm_compute; reflexivity|]. split; [vm_compute; reflexivity|]. split; [vm_compute; reflexivity|].
  split; [do 2 eexists; split; vm_compute; reflexivity|]. split; [do 2 eexists; split; vm_compute; reflexivity|]. vm_compute. reflexivity.
Qed.

(** ** C30 *)
Theorem C30_not_encrypted_unless_asked : forall (E : Env) s a m o, reachable s -> answer s (AOutgoing a m) = Ok (OOutgoing o) ->
  control m = Some (L "no") \/
  (control m <> Some (L "yes") /\ exists r, recommended s a (others m) false r /\ r <> L "encrypt") ->
  prepared m (out_added o) (out_msg o) /\
  forall g, ran s (after s (AOutgoing a m)) g -> gc_in g = None.
Proof. exact @c30. Qed.
Print Assumptions C30_not_encrypted_unless_asked.

(** and in that case the call does return, if no Autocrypt header has to be made *)
Theorem C30_does_return : forall (E : Env) s a m f b, reachable s -> has_account s a ->
  hget_all m (L "From") = [f] -> hget_all m (L "Autocrypt") <> [] -> is_encrypted m = Ok b ->
  control m = Some (L "no") \/
  ((control m = None \/ control m = Some (L "opportunistic")) /\ exists r, recommended s a (others m) false r /\ r <> L "encrypt") ->
  exists o, answer s (AOutgoing a m) = Ok (OOutgoing o).
Proof. exact @c30_returns. Qed.
Print Assumptions C30_does_return.

Example C30_example : control (to_both no) = Some (L "no") /\
  (exists v, sent (to_both no) = Ok (Msg (m_headers (to_both []) ++ [(L "Autocrypt", v)]) (m_body (to_both [])), Some v)) /\
  let m := mail alice (L "dave@d.org") (L "3000") (L "<3>") [(L "Autocrypt", L "mine")] in
  recommended state1 (L "a") (others m) false (L "disable") /\ sent m = Ok (m, None).
Proof.
  split; [vm_compute; reflexivity|]. split; [eexists; vm_compute; reflexivity|]. split; vm_compute; reflexivity.
Qed.

(** ** C31 *)
Theorem C31_no_encrypt_header : forall (E : Env) s a m o, reachable s -> answer s (AOutgoing a m) = Ok (OOutgoing o) ->
  ~ has_header (out_msg o) (L "ENCRYPT").
Proof. exact @c31. Qed.
Print Assumptions C31_no_encrypt_header.

(** on the command line, for mail that is not resent *)
Theorem C31_no_encrypt_header_command_line : forall (E : Env) s m m', reachable s ->
  hget m (L "Resent-From") = None \/ hget m (L "Resent-From") = Some [] ->
  answer s (ACliOutgoing m) = Ok (OMsg m') -> ~ has_header m' (L "ENCRYPT").
Proof. exact @c31_cli. Qed.
Print Assumptions C31_no_encrypt_header_command_line.

(** resent mail keeps it *)
Theorem C31_resent_command_line_refuted : exists (E : Env) s m m', reached s /\
  answer s (ACliOutgoing m) = Ok (OMsg m') /\ has_header m' (L "ENCRYPT").
Proof.
  exists E0, state1, (to_both ((L "Resent-From", alice) :: yes)). eexists.
  split; [exact state1_reached|]. split; [vm_compute; reflexivity|].
  exists (L "Encrypt"), (L " yes"). split; [vm_compute; auto 8|vm_compute; reflexivity].
Qed.
Print Assumptions C31_resent_command_line_refuted.

Example C31_example : has_header (to_both no) (L "ENCRYPT") /\ hget_all (to_both no) (L "ENCRYPT") = [L "no"; L "no"] /\
  exists m', answer state1 (ACliOutgoing (to_both no)) = Ok (OMsg m') /\ hget_all m' (L "ENCRYPT") = [].
Proof.
  split; [exists (L "ENCRYPT"), (L "no"); split; [vm_compute; auto 8|reflexivity]|]. split; [vm_compute; reflexivity|].
  eexists. split; vm_compute; reflexivity.
Qed.

(** ** C32 *)
Theorem C32_autocrypt_headers_kept : forall (E : Env) s a m o, reachable s -> answer s (AOutgoing a m) = Ok (OOutgoing o) ->
  hget_all m (L "Autocrypt") <> [] ->
  hget_all (out_msg o) (L "Autocrypt") = hget_all m (L "Autocrypt") /\ out_added o = None.
Proof. exact @c32_kept. Qed.
Print Assumptions C32_autocrypt_headers_kept.

(** The part about reading the header back has the conditions of C24. *)
Theorem C32_autocrypt_header_added : forall (E : Env) s a m o, reachable s -> answer s (AOutgoing a m) = Ok (OOutgoing o) ->
  hget_all m (L "Autocrypt") = [] ->
  exists v c kh key, hget_all (out_msg o) (L "Autocrypt") = [v] /\ own_of s a = Some (c, kh) /\
    own_public_key s (after s (AOutgoing a m)) kh key /\
    make_ac_header_value (from_addr m) key (cf_pref c) = Ok v /\
    (is_bytes key = true -> key <> [] -> ~ In 59%N (sender_of m) -> norm (strip (sender_of m)) = sender_of m ->
     parse_ac_headervalue v = Ok (PAH (Some key) (Some (sender_of m)) (Some (cf_pref c)) (Some []) None)).
Proof. exact @c32_added. Qed.
Print Assumptions C32_autocrypt_header_added.

Definition own_key : bytes := L "PUB" ++ toy_id 0.
Example C32_example :
  let m := to_both [] in
  hget_all m (L "Autocrypt") = [] /\ is_bytes own_key = true /\ sender_of m = alice /\ ~ In 59%N alice /\ norm (strip alice) = alice /\
  (exists m', sent m = Ok (m', Some (our_value alice (L "mutual") own_key))) /\
  (exists m', sent (to_both [(L "autocrypt", L "x"); (L "Autocrypt", L "y")]) = Ok (m', None) /\ hget_all m' (L "Autocrypt") = [L "x"; L "y"]).
Proof.
  cbv zeta. do 3 (split; [vm_compute; reflexivity|]). split; [vm_compute; intuition discriminate|]. split; [vm_compute; reflexivity|].
  split; [eexists; vm_compute; reflexivity|]. eexists. split; vm_compute; reflexivity.
Qed.

(** ** C33 *)
Theorem C33_readable_by_all_recipients : forall (E : Env) s a m o, reachable s -> answer s (AOutgoing a m) = Ok (OOutgoing o) ->
  is_encrypted m = Ok false -> is_encrypted (out_msg o) = Ok true ->
  exists c own khs data enc, own_of s a = Some (c, own) /\
    gpg_encrypted s (after s (AOutgoing a m)) khs own data enc /\ m_body (out_msg o) = pgp_body enc /\
    (forall x, In x (targets m) \/ x = from_addr m -> exists kh, key_in_use s a (norm x) kh /\ In kh khs) /\
    (forall kh, In kh khs -> exists x, (In x (targets m) \/ x = from_addr m) /\ key_in_use s a (norm x) kh).
Proof. exact @c33. Qed.
Print Assumptions C33_readable_by_all_recipients.

(** the command line of gpg in the example: bob, carol and the sender *)
Example C33_example : is_encrypted (to_both yes) = Ok false /\
  exists home argv data, hd_error (a_trace (after state1 (AOutgoing (L "a") (to_both yes)))) = Some (GCall home argv (Some data) None) /\
    skipn 7 argv = [L "--encrypt"; L "--always-trust"; L "-r"; skipn 3 keyB; L "-r"; skipn 3 keyC; L "-r"; toy_id 0;
                    L "--sign"; L "-u"; toy_id 0; L "--armor"].
Proof. split; [vm_compute; reflexivity|]. do 3 eexists. split; vm_compute; reflexivity. Qed.

(** ** C34 *)
(** A header MIME-Version of the original is on neither part ([outer_headers],
    [inner_headers]). *)
Theorem C34_headers_outside_content_inside : forall (E : Env) s a m to em khs, reachable s ->
  answer s (AEncrypt a m to) = Ok (OEncrypted em khs) ->
  is_encrypted em = Ok true /\ m_headers em = (L "Content-Type", encrypted_ctype) :: outer_headers m /\
  Forall2 (fun x => key_in_use s a (norm x)) to khs /\
  exists c own gs clear data enc, own_of s a = Some (c, own) /\ m_body em = pgp_body enc /\
    gpg_encrypted s (after s (AEncrypt a m to)) khs own data enc /\ flatten clear = Ok data /\
    m_body clear = m_body m /\
    m_headers clear = inner_headers m ++ map (fun v => (L "Autocrypt-Gossip", v)) (concat gs) /\
    Forall2 (fun x => gossip_about s a (norm x)) to gs.
Proof. exact @c34_encrypt. Qed.
Print Assumptions C34_headers_outside_content_inside.

Theorem C34_outgoing_headers : forall (E : Env) s a m o, reachable s -> answer s (AOutgoing a m) = Ok (OOutgoing o) ->
  is_encrypted m = Ok false -> is_encrypted (out_msg o) = Ok true ->
  m_headers (out_msg o) = (L "Content-Type", encrypted_ctype) :: without (L "ENCRYPT") (outer_headers m)
    ++ match out_added o with Some v => [(L "Autocrypt", v)] | None => [] end.
Proof. exact @c34_outgoing. Qed.
Print Assumptions C34_outgoing_headers.

Theorem C34_decryption : forall (E : Env) s a m dm infos, reachable s -> answer s (ADecrypt a m) = Ok (ODecrypted dm infos) ->
  is_encrypted m = Ok true /\
  exists enc data, cipher_of m = Some enc /\
    m_body dm = m_body (parse_bytes data) /\ m_headers dm = m_headers (parse_bytes data) ++ outer_headers m /\
    exists home argv r, ran s (after s (ADecrypt a m)) (GCall home argv (Some enc) None) /\
      decrypt_command argv /\ g_out (snd (gpg r argv (Some enc) None)) = data.
Proof. exact @c34_decrypt. Qed.
Print Assumptions C34_decryption.

(** There and back, possibly on another machine: if gpg gives back what it was given, and
    parsing is the inverse of writing for mails with this body, then decryption restores the
    body and the headers: those that describe the body, gossip, all others. *)
Theorem C34_there_and_back : forall (E : Env) s a m to em khs, reachable s -> answer s (AEncrypt a m to) = Ok (OEncrypted em khs) ->
  (forall x data, m_body x = m_body m -> flatten x = Ok data -> parse_bytes data = x) ->
  forall s2 b dm infos, reachable s2 -> answer s2 (ADecrypt b em) = Ok (ODecrypted dm infos) ->
  (forall khs own data enc, gpg_encrypted s (after s (AEncrypt a m to)) khs own data enc -> forall home argv r,
     ran s2 (after s2 (ADecrypt b em)) (GCall home argv (Some enc) None) -> g_out (snd (gpg r argv (Some enc) None)) = data) ->
  exists gs, Forall2 (fun x => gossip_about s a (norm x)) to gs /\ m_body dm = m_body m /\
    m_headers dm = inner_headers m ++ map (fun v => (L "Autocrypt-Gossip", v)) (concat gs) ++ outer_headers m.
Proof. exact @c34_roundtrip. Qed.
Print Assumptions C34_there_and_back.

Definition plain_mail : msg := to_both [(L "Content-Type", L "text/plain"); (L "MIME-Version", L "1.0"); (L "X", L "1"); (L "X", L "2")].
Definition sealed_mail : msg :=
  match answer state1 (AEncrypt (L "a") plain_mail [bob; carol]) with Ok (OEncrypted em _) => em | _ => plain_mail end.
Example C34_example :
  (exists khs, answer state1 (AEncrypt (L "a") plain_mail [bob; carol]) = Ok (OEncrypted sealed_mail khs)) /\
  (forall x data, m_body x = m_body plain_mail -> flatten x = Ok data -> parse_bytes data = x) /\
  (exists infos, answer state1 (ADecrypt (L "a") sealed_mail) = Ok (ODecrypted (Msg
     ([(L "Content-Type", L "text/plain"); (L "Autocrypt-Gossip", our_value bob [] keyB); (L "Autocrypt-Gossip", our_value carol [] keyC)]
      ++ m_headers (to_both []) ++ [(L "X", L "1"); (L "X", L "2")]) (m_body plain_mail)) infos)).
Proof.
  split; [eexists; vm_compute; reflexivity|]. split.
  - intros [h b] data Hb [= <-]. cbn [m_body] in Hb. change (m_body plain_mail) with (PStr (L "hello")) in Hb. subst b. apply toy_parse_str.
  - eexists. vm_compute. reflexivity.
Qed.
Example C34_example_gpg : forall khs own data enc, gpg_encrypted state1 (after state1 (AEncrypt (L "a") plain_mail [bob; carol])) khs own data enc ->
  forall home argv r, ran state1 (after state1 (ADecrypt (L "a") sealed_mail)) (GCall home argv (Some enc) None) ->
  g_out (snd (gpg r argv (Some enc) None)) = data.
Proof.
  intros khs own data enc [home0 [argv0 [r0 [H1 [_ H3]]]]] home argv r H4.
  apply ran_new in H1, H4. vm_compute in H1, H4. destruct H1 as [H1|[]]. injection H1 as <- <- <-.
  destruct H4 as [H4|[]]. injection H4 as <- <- _. rewrite <- H3. vm_compute. reflexivity.
Qed.

(** ** C35 *)
(** The conditions on the address are those of C24. *)
Theorem C35_gossip_tells_the_truth : forall (E : Env) s a m to em khs, reachable s -> answer s (AEncrypt a m to) = Ok (OEncrypted em khs) ->
  exists clear data enc gs c own, m_body em = pgp_body enc /\ own_of s a = Some (c, own) /\
    gpg_encrypted s (after s (AEncrypt a m to)) khs own data enc /\ flatten clear = Ok data /\
    hget_all clear (L "Autocrypt-Gossip") = concat gs /\
    Forall2 (fun x g => exists v, peer_of s a (norm x) = Some v /\
       (pv_keyhandle v = [] /\ g = [] \/
        pv_keyhandle v <> [] /\ exists h, g = [h] /\
          (is_bytes (pv_keydata v) = true -> ~ In 59%N (norm (norm x)) -> norm (strip (norm (norm x))) = norm (norm x) ->
           key_header h (norm (norm x)) (pv_keydata v) (L "nopreference")))) to gs.
Proof. exact @c35. Qed.
Print Assumptions C35_gossip_tells_the_truth.

(** alice has no peer state: no gossip about her *)
Example C35_example : exists em khs dm infos, let s := after_all ast0 known in
  answer s (AEncrypt (L "a") plain_mail [L "Bob@b.org"; alice; carol]) = Ok (OEncrypted em khs) /\
  answer s (ADecrypt (L "a") em) = Ok (ODecrypted dm infos) /\
  hget_all dm (L "Autocrypt-Gossip") = [our_value bob [] keyB; our_value carol [] keyC] /\
  is_bytes keyB = true /\ norm (norm (L "Bob@b.org")) = bob /\ norm (strip bob) = bob.
Proof. do 4 eexists. cbv zeta. do 5 (split; [vm_compute; reflexivity|]). vm_compute. reflexivity. Qed.

(** ** C36: false in general.  The full statement has no hypothesis about the cleartext
    headers: they are copied to the decrypted mail before gossip headers are looked for. *)
Theorem C36_gossip_from_inside_partial : forall (E : Env) s c a x v, reachable s -> peer_of s a x = Some v -> deletes a c = false ->
  (forall m, In m (mails_for a c) -> hget_all m (L "Autocrypt-Gossip") = []) ->
  exists v', peer_of (after s c) a x = Some v' /\
    (pv_latest_gossip v' = pv_latest_gossip v \/
     exists g m content w r pref, pv_latest_gossip v' = Some g /\ In m (mails_for a c) /\ is_encrypted m = Ok true /\
       opens a m content /\ In w (hget_all (parse_bytes content) (L "Autocrypt-Gossip")) /\
       key_header w r (ge_keydata g) pref /\ norm r = norm x).
Proof. exact @c36. Qed.
Print Assumptions C36_gossip_from_inside_partial.

Definition outside_gossip : msg := enc_mail carol (L "alice@a.org, bob@b.org") (L "1000") (L "<g>") [] [(L "Autocrypt-Gossip", ac_value bob [] keyA)].
Theorem C36_gossip_from_cleartext_refuted : exists (E : Env) s a m x v v' g,
  reached s /\ peer_of s a x = Some v /\ pv_latest_gossip v = None /\ is_encrypted m = Ok true /\
  (forall content, opens a m content -> hget_all (parse_bytes content) (L "Autocrypt-Gossip") = []) /\
  peer_of (after s (AIncoming a m false false)) a x = Some v' /\ pv_latest_gossip v' = Some g.
Proof.
  exists E0, (after_all ast0 [add_a]), (L "a"), outside_gossip, bob. do 3 eexists.
  split; [exists [add_a]; reflexivity|]. do 3 (split; [vm_compute; reflexivity|]).
  split; [|split; vm_compute; reflexivity]. intros content H. eapply E0_opens_as in H; [|unfold outside_gossip, enc_mail; reflexivity]. subst content. vm_compute. reflexivity.
Qed.
Print Assumptions C36_gossip_from_cleartext_refuted.

Definition inside_gossip : msg := enc_mail carol (L "alice@a.org, bob@b.org") (L "1000") (L "<g>") [ac_value bob [] keyA] [].
Definition gossip_in (h : list api) (a x : text) : option bytes :=
  match peer_of (after_all ast0 h) a x with Some v => option_map ge_keydata (pv_latest_gossip v) | None => None end.
Example C36_example : hget_all inside_gossip (L "Autocrypt-Gossip") = [] /\ mails_for (L "a") (in_a inside_gossip) = [inside_gossip] /\
  gossip_in [add_a] (L "a") bob = None /\ gossip_in [add_a; in_a inside_gossip] (L "a") bob = Some keyA.
Proof. do 3 (split; [vm_compute; reflexivity|]). vm_compute. reflexivity. Qed.

(** ** C37: false in general.  The full statement has, in place of [In r (targets dm)], that
    some recipient r' has the normal form r. *)
Theorem C37_gossip_reaches_recipients_partial : forall (E : Env) s a m ign i dm infos r v key pref, reachable s ->
  answer s (AIncoming a m ign false) = Ok (OIncoming (Some i)) -> is_encrypted m = Ok true ->
  answer (after s (AIncoming a m ign true)) (ADecrypt a m) = Ok (ODecrypted dm infos) ->
  In r (targets dm) -> In v (hget_all dm (L "Autocrypt-Gossip")) -> key_header v r key pref ->
  exists p key' w pref' v', dget (in_gossip i) r = Some p /\ p_keydata p = Some key' /\
    In w (hget_all dm (L "Autocrypt-Gossip")) /\ key_header w r key' pref' /\
    peer_of (after s (AIncoming a m ign false)) a r = Some v' /\
    ((in_date i < pv_ac_timestamp v')%Z \/
     (pv_latest_gossip v' <> None /\ exists t kh, In (Block t (EGossip (GossipEntry (msg_id_text m) (in_date i) key' kh)))
        (alog (after s (AIncoming a m ign false)) (L "peer:" ++ a ++ L ":" ++ norm r)))).
Proof. exact @c37. Qed.
Print Assumptions C37_gossip_reaches_recipients_partial.

Definition capital_gossip : msg := enc_mail carol (L "alice@a.org, Bob@b.org") (L "1000") (L "<g>") [ac_value bob [] keyA] [].
Theorem C37_capital_letters_refuted : exists (E : Env) s a m i dm infos r r' v key pref v',
  reached s /\ answer s (AIncoming a m false false) = Ok (OIncoming (Some i)) /\ is_encrypted m = Ok true /\
  answer (after s (AIncoming a m false true)) (ADecrypt a m) = Ok (ODecrypted dm infos) /\
  In r' (targets dm) /\ norm r' = r /\ In v (hget_all dm (L "Autocrypt-Gossip")) /\ key_header v r key pref /\
  dget (in_gossip i) r = None /\ peer_of (after s (AIncoming a m false false)) a r = Some v' /\
  pv_ac_timestamp v' = 0%Z /\ pv_latest_gossip v' = None.
Proof.
  exists E0, (after_all ast0 [add_a]), (L "a"), capital_gossip. do 3 eexists. exists bob, (L "Bob@b.org"), (ac_value bob [] keyA), keyA, (L "nopreference"). eexists.
  split; [exists [add_a]; reflexivity|]. do 3 (split; [vm_compute; reflexivity|]). split; [vm_compute; auto|].
  split; [vm_compute; reflexivity|]. split; [vm_compute; auto|]. split; [eexists; vm_compute; reflexivity|].
  do 3 (split; [vm_compute; reflexivity|]). vm_compute. reflexivity.
Qed.
Print Assumptions C37_capital_letters_refuted.

Example C37_example : let s := after_all ast0 [add_a] in
  exists i dm infos, answer s (in_a inside_gossip) = Ok (OIncoming (Some i)) /\ is_encrypted inside_gossip = Ok true /\
  answer (after s (AIncoming (L "a") inside_gossip false true)) (ADecrypt (L "a") inside_gossip) = Ok (ODecrypted dm infos) /\
  In bob (targets dm) /\ hget_all dm (L "Autocrypt-Gossip") = [ac_value bob [] keyA] /\ key_header (ac_value bob [] keyA) bob keyA (L "nopreference") /\
  option_map p_keydata (dget (in_gossip i) bob) = Some (Some keyA).
Proof.
  cbv zeta. do 3 eexists. do 3 (split; [vm_compute; reflexivity|]). split; [vm_compute; auto|].
  split; [vm_compute; reflexivity|]. split; [eexists; vm_compute; reflexivity|vm_compute; reflexivity].
Qed.

(** ** C38: false in general.  The full statement has no hypothesis about the keys. *)
Theorem C38_malformed_gossip_does_no_harm_partial : forall (E : Env) s a m ign i dm infos, reachable s ->
  answer s (AIncoming a m ign true) = Ok (OIncoming (Some i)) -> is_encrypted m = Ok true ->
  answer (after s (AIncoming a m ign true)) (ADecrypt a m) = Ok (ODecrypted dm infos) ->
  (forall v, In v (hget_all dm (L "Autocrypt-Gossip")) -> error_header v \/
     exists x key pref kh, key_header v x key pref /\ key <> [] /\ imports_as a key kh) ->
  exists i', answer s (AIncoming a m ign false) = Ok (OIncoming (Some i')) /\
    in_id i' = in_id i /\ in_date i' = in_date i /\ in_pah i' = in_pah i.
Proof. exact @c38. Qed.
Print Assumptions C38_malformed_gossip_does_no_harm_partial.

Definition bad_gossip : msg := enc_mail carol (L "alice@a.org, bob@b.org") (L "1000") (L "<g>") [ac_value bob [] (L "no key")] [].
Theorem C38_unimportable_gossip_refuted : exists (E : Env) s a m i dm infos v key pref,
  reached s /\ answer s (AIncoming a m false true) = Ok (OIncoming (Some i)) /\ is_encrypted m = Ok true /\
  answer (after s (AIncoming a m false true)) (ADecrypt a m) = Ok (ODecrypted dm infos) /\
  hget_all dm (L "Autocrypt-Gossip") = [v] /\ key_header v bob key pref /\ key <> [] /\
  answer s (AIncoming a m false false) = Err TypeError.
Proof.
  exists E0, (after_all ast0 [add_a]), (L "a"), bad_gossip. do 3 eexists. exists (ac_value bob [] (L "no key")), (L "no key"), (L "nopreference").
  split; [exists [add_a]; reflexivity|]. do 4 (split; [vm_compute; reflexivity|]). split; [eexists; vm_compute; reflexivity|].
  split; [discriminate|vm_compute; reflexivity].
Qed.
Print Assumptions C38_unimportable_gossip_refuted.

Definition broken_value : text := L "addr=bob@b.org; keydata=A".
Definition half_bad_gossip : msg := enc_mail carol (L "alice@a.org, bob@b.org") (L "1000") (L "<g>") [broken_value; ac_value bob [] keyB] [].
Example C38_example : let s := after_all ast0 [add_a] in
  exists i dm infos, answer s (AIncoming (L "a") half_bad_gossip false true) = Ok (OIncoming (Some i)) /\ is_encrypted half_bad_gossip = Ok true /\
  answer (after s (AIncoming (L "a") half_bad_gossip false true)) (ADecrypt (L "a") half_bad_gossip) = Ok (ODecrypted dm infos) /\
  (forall v, In v (hget_all dm (L "Autocrypt-Gossip")) -> error_header v \/
     exists x key pref kh, key_header v x key pref /\ key <> [] /\ imports_as (L "a") key kh).
Proof.
  cbv zeta. do 3 eexists. do 3 (split; [vm_compute; reflexivity|]). intros v Hv. vm_compute in Hv. destruct Hv as [<-|[<-|[]]].
  - left. eexists. split; vm_compute; reflexivity.
  - right. exists bob, keyB, (L "nopreference"), (skipn 3 keyB). split; [eexists; vm_compute; reflexivity|]. split; [discriminate|].
    exact E0_imports_keyB'.
Qed.
