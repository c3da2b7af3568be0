(** C79 and C80: what the statements about mails mean, and which key of a peer counts.
    Statements only; proofs are in VocabProofs.v, the vocabulary is in VocabSpec.v. *)
From Verif Require Import Base PyStr Base64 Env Prog Chain Gpg Mime States Recommendation Account Cmdline Fs Api Spec PeerSpec AcctSpec RecSpec OutSpec Obs
  CliSpec GpgSpec TalkSpec FailSpec KeySpec GpgMore GpgMoreSpec VocabSpec VocabProofs PropsPeer PropsOut Toy Demo.
#[local] Existing Instance E0.   (* for the examples *)

(** ** C79 *)
(** Characters *)
Theorem C79_white_space : forall c, is_space c = true <-> In c white_space.
Proof. exact c79_space. Qed.
Print Assumptions C79_white_space.
Theorem C79_small_letters : forall (E : Env) s, ascii s -> Forall2 small_of s (lower s).
Proof. exact @c79_lower. Qed.
Print Assumptions C79_small_letters.
Theorem C79_letters_and_digits : forall (E : Env) s, ascii s -> (isalnum s = true <-> s <> [] /\ Forall letter_or_digit s).
Proof. exact @c79_alnum. Qed.
Print Assumptions C79_letters_and_digits.
Theorem C79_utf8 : forall t b,
  (to_utf8 t = Some b <-> exists bs, Forall2 in_utf8 t bs /\ b = concat bs) /\
  (utf8 b = Some t <-> exists bs, Forall2 in_utf8 t bs /\ b = concat bs).
Proof. exact c79_utf8. Qed.
Print Assumptions C79_utf8.

Example C79_characters : ascii (L "Bob_3") /\ lower (L "Bob_3") = L "bob_3" /\ isalnum (L "Bob3") = true /\ isalnum (L "Bob_3") = false /\
  to_utf8 [233; 8364; 128512]%N = Some [195; 169; 226; 130; 172; 240; 159; 152; 128]%N /\ utf8 [192; 175]%N = None /\ to_utf8 [55296]%N = None.
Proof. split; [intros c Hc; apply N.ltb_lt; revert c Hc; apply forallb_forall; vm_compute; reflexivity|]. repeat split; vm_compute; reflexivity. Qed.

(** Pieces of texts *)
Theorem C79_pieces : forall c s ls, cut_into c s ls <-> split_on c s = ls.
Proof. exact c79_pieces. Qed.
Print Assumptions C79_pieces.
Theorem C79_words : forall s ws, in_words s ws <-> split_ws s = ws.
Proof. exact c79_words. Qed.
Print Assumptions C79_words.
Theorem C79_begins_with : forall p s, startswith p s = true <-> exists r, s = p ++ r.
Proof. exact c79_begins. Qed.
Print Assumptions C79_begins_with.
Theorem C79_within : forall p s, contains p s = true <-> exists a b, s = a ++ p ++ b.
Proof. exact c79_within. Qed.
Print Assumptions C79_within.
Theorem C79_order : forall a b, text_leb a b = true <-> not_after a b.
Proof. exact c79_order. Qed.
Print Assumptions C79_order.

Example C79_texts : in_words (L "  to be  or ") [L "to"; L "be"; L "or"] /\ cut_into 59 (L "a;;b") [L "a"; []; L "b"] /\
  not_after (L "abc") (L "abd") /\ ~ not_after (L "b") (L "abd") /\ contains (L "ef") (L "prefer") = true.
Proof.
  split; [apply C79_words; vm_compute; reflexivity|]. split; [apply C79_pieces; vm_compute; reflexivity|].
  split; [apply C79_order; vm_compute; reflexivity|]. split; [|vm_compute; reflexivity].
  intros H. apply C79_order in H. revert H. vm_compute. discriminate.
Qed.

(** Header fields *)
Theorem C79_fields : forall (E : Env) m n, (forall vs, fields n (m_headers m) vs <-> hget_all m n = vs) /\
  (forall v, field m n v <-> hget m n = Some v) /\ (no_field m n <-> hget m n = None) /\ (no_field m n <-> hin m n = false).
Proof. exact @c79_fields. Qed.
Print Assumptions C79_fields.
Theorem C79_content_type : forall (E : Env) m t, content_type m t <-> get_content_type m = t.
Proof. exact @c79_content_type. Qed.
Print Assumptions C79_content_type.
(** A mail is encrypted if it is of this form (RFC 3156).  The program fails with mails that
    claim to be encrypted and have no parts, if the length of their body is two or they have none. *)
Theorem C79_encrypted : forall (E : Env) m, (is_encrypted m = Ok true <-> pgp_mime m) /\
  (is_encrypted m = Ok false <-> ~ pgp_mime m /\ ~ headless m) /\ ((exists e, is_encrypted m = Err e) <-> headless m).
Proof. exact @c79_encrypted. Qed.
Print Assumptions C79_encrypted.

Example C79_mails : let odd := Msg [(L "content-TYPE", L " Multipart/Encrypted ; x=y")] (PStr (L "ab")) in
  let two := Msg [(L "Content-Type", L "multipart/encrypted")] (PParts [Msg [(L "Content-Type", L "application/pgp-encrypted")] (PStr []); Msg [] (PStr [])]) in
  pgp_mime gossip_old /\ headless odd /\ ~ pgp_mime two /\ ~ headless two /\
  content_type odd (L "multipart/encrypted") /\ content_type (Msg [] PNone) (L "text/plain") /\ content_type (Msg [(L "Content-Type", L "a/b/c")] PNone) (L "text/plain") /\
  fields (L "x") [(L "X", L "1"); (L "y", L "2"); (L "x", L "3")] [L "1"; L "3"].
Proof.
  cbv zeta. split; [apply C79_encrypted; vm_compute; reflexivity|]. split; [apply C79_encrypted; eexists; vm_compute; reflexivity|].
  match goal with |- ~ pgp_mime ?m /\ _ => assert (H : ~ pgp_mime m /\ ~ headless m) by (apply C79_encrypted; vm_compute; reflexivity) end.
  destruct H as [H1 H2]. split; [exact H1|]. split; [exact H2|]. do 3 (split; [apply C79_content_type; vm_compute; reflexivity|]).
  apply (proj1 (C79_fields E0 (Msg [(L "X", L "1"); (L "y", L "2"); (L "x", L "3")] PNone) (L "x"))). vm_compute. reflexivity.
Qed.

(** Who, when, which *)
Theorem C79_address : forall (E : Env) v x, address v x <-> norm v = x.
Proof. exact @c79_address. Qed.
Print Assumptions C79_address.
Theorem C79_from : forall (E : Env) m x, comes_from m x <-> from_addr m = x.
Proof. exact @c79_from. Qed.
Print Assumptions C79_from.
Theorem C79_date : forall (E : Env) m d, written_at m d <-> dated m d.
Proof. exact @c79_date. Qed.
Print Assumptions C79_date.
Theorem C79_id : forall (E : Env) m i, id_of m i <-> msg_id_text m = i.
Proof. exact @c79_id. Qed.
Print Assumptions C79_id.
Theorem C79_to : forall (E : Env) m y, (goes_to m y <-> In y (targets m)) /\ (goes_to m y <-> In y (get_target_emailadr m)).
Proof. exact @c79_to. Qed.
Print Assumptions C79_to.

Example C79_letter : let m := mail (L "Bob <BOB@b.org>") (L "carol@c.org") (L "1000") (L "<1>") [(L "cc", L "dave@d.org"); (L "date", L "2000")] in
  comes_from m bob /\ written_at m (1000 * sec) /\ id_of m (L "<1>") /\ goes_to m (L "carol@c.org") /\ goes_to m (L "dave@d.org") /\
  id_of (Msg [] PNone) (L "None") /\ written_at (Msg [(L "Date", L "soon")] PNone) 0 /\ written_at (Msg [] PNone) 0.
Proof.
  cbv zeta. split; [apply C79_from; vm_compute; reflexivity|]. split; [apply C79_date; vm_compute; reflexivity|]. split; [apply C79_id; vm_compute; reflexivity|].
  split; [apply C79_to; vm_compute; tauto|]. split; [apply C79_to; vm_compute; tauto|]. split; [apply C79_id; vm_compute; reflexivity|].
  split; apply C79_date; vm_compute; reflexivity.
Qed.

(** Opened mail: it has the body and the fields of the content, and then the outer fields that
    do not describe the body *)
Theorem C79_opened : forall (E : Env) m data, with_outer m (parse_bytes data) (opened_as m data).
Proof. exact @c79_opened. Qed.
Print Assumptions C79_opened.
(** The content is what a gpg process wrote that was told to decrypt the second part *)
Theorem C79_opens : forall (E : Env) a m content, opens a m content ->
  exists p q enc argv r, m_body m = PParts [p; q] /\ (m_body q = PStr enc \/ m_body q = PBytes enc) /\ decrypt_command argv /\
    g_ret (snd (gpg r argv (Some enc) None)) = 0%Z /\ g_out (snd (gpg r argv (Some enc) None)) = content.
Proof. exact @c79_opens. Qed.
Print Assumptions C79_opens.

Definition gossip_content : bytes :=
  enc_msg (Msg [(L "Content-Type", L "text/plain"); (L "Autocrypt-Gossip", ac_value bob [] keyA)] (PStr (L "secret"))).
Example C79_opened_example :
  opens (L "a") gossip_old gossip_content /\ m_body (opened_as gossip_old gossip_content) = PStr (L "secret") /\
  hget (opened_as gossip_old gossip_content) (L "From") = Some carol /\ hget_all (opened_as gossip_old gossip_content) (L "Content-Type") = [L "text/plain"].
Proof.
  split.
  - exists (after_all ast0 [add_a]), (BinGPG (Some (own_gpghome (L "a"))) (L "gpg")), (L "ENC" ++ gossip_content), (after_all ast0 [add_a]), [].
    split; [vm_compute; reflexivity|]. split; vm_compute; reflexivity.
  - split; [vm_compute; reflexivity|]. split; vm_compute; reflexivity.
Qed.

(** C29 in these words *)
Theorem C79_not_in_the_clear : forall (E : Env) s a m o, reachable s -> answer s (AOutgoing a m) = Ok (OOutgoing o) ->
  control m = Some (L "yes") \/ (control m <> Some (L "no") /\ recommended s a (others m) false (L "encrypt")) ->
  pgp_mime (out_msg o) /\
  ((pgp_mime m /\ m_body (out_msg o) = m_body m) \/
   exists p q khs own clear data enc, m_body (out_msg o) = PParts [p; q] /\ m_body p = PStr (L "version: 1") /\ m_body q = PBytes enc /\
     m_body clear = m_body m /\ flatten clear = Ok data /\ gpg_encrypted s (after s (AOutgoing a m)) khs own data enc).
Proof. exact @c79_not_in_the_clear. Qed.
Print Assumptions C79_not_in_the_clear.

Example C79_sent : control (to_both yes) = Some (L "yes") /\ ~ pgp_mime (to_both yes) /\
  exists m' v, sent (to_both yes) = Ok (m', v) /\ pgp_mime m'.
Proof.
  split; [vm_compute; reflexivity|]. split; [apply C79_encrypted; vm_compute; reflexivity|].
  do 2 eexists. split; [vm_compute; reflexivity|]. apply C79_encrypted. vm_compute. reflexivity.
Qed.

(** ** C80 *)
Theorem C80_which_key_counts : forall (E : Env) s a x v, reachable s -> peer_of s a x = Some v ->
  key_counts v (pv_keyhandle v) (pv_keydata v) (pv_pref v) /\
  (pv_direct v = true <-> exists e, importable v e) /\
  (forall e, pv_entry v = Some (inl e) <-> importable v e) /\
  (forall g, pv_entry v = Some (inr g) <-> (forall e, ~ importable v e) /\ pv_latest_gossip v = Some g) /\
  (pv_ac_timestamp v = match pv_latest_ac v with Some e => me_date e | None => 0%Z end) /\
  (forall e, pv_latest_ac v = Some e -> me_keydata e <> []).
Proof. exact @c80. Qed.
Print Assumptions C80_which_key_counts.

(** a peer with a direct key and later gossip; one with gossip only; an unknown one; one whose
    own key could not be imported *)
Example C80_example : let seen v := (pv_direct v, pv_keydata v, pv_pref v, option_map ge_keydata (pv_latest_gossip v)) in
  option_map seen (bob_of [add_a; in_a bob1; in_a gossip_old]) = Some (true, keyB, L "mutual", Some keyA) /\
  option_map seen (bob_of [add_a; in_a gossip_old]) = Some (false, keyA, [], Some keyA) /\
  option_map seen (bob_of [add_a]) = Some (false, [], [], None) /\
  option_map (fun v => (seen v, option_map me_keydata (pv_latest_ac v))) (bob_of [add_a; in_a gossip_old; in_a (ac_mail bob alice (L "1000") (L "<1>") (L "mutual") (L "junk"))])
  = Some ((false, keyA, [], Some keyA), Some (L "junk")).
Proof. cbv zeta. repeat split; vm_compute; reflexivity. Qed.
