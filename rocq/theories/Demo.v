(** Sessions in the toy environment used by the examples beside the theorems. *)
From Verif Require Import Base PyStr Base64 Env Prog Chain Gpg Mime States Account Cmdline Bot Fs Api Steps Spec PeerSpec Toy.

(** an Autocrypt header value as other programs write it *)
Definition ac_value (addr pref : text) (key : bytes) : text :=
  L "addr=" ++ addr ++ L "; " ++ (if nonempty pref then L "prefer-encrypt=" ++ pref ++ L "; " else []) ++
  L "keydata=" ++ b64encode key.
Definition ac_mail (from to date id pref : text) (key : bytes) : msg :=
  mail from to date id [(L "Autocrypt", ac_value from pref key)].

Definition add_a : api := AAdd (L "a") (Some (L ".*")) None (L "gpg") (L "own").
Definition add_b : api := AAdd (L "b") (Some (L "bob")) None (L "gpg") (L "own").
Definition in_a (m : msg) : api := AIncoming (L "a") m false false.

(** two accounts, two mails from bob (the second one newer), one from carol without a key *)
Definition demo : list api :=
  [add_a; add_b;
   in_a (ac_mail bob alice (L "1000") (L "<1>") (L "mutual") keyB);
   in_a (ac_mail bob alice (L "2000") (L "<2>") [] keyC);
   in_a (mail carol alice (L "1500") (L "<3>") [])].

(** an encrypted mail whose protected part has the given Autocrypt-Gossip header values *)
Definition enc_mail (from to date id : text) (gossip : list text) (extra : list (text * text)) : msg :=
  Msg ([(L "From", from); (L "To", to); (L "Date", date); (L "Message-Id", id); (L "Content-Type", encrypted_ctype)] ++ extra)
    (PParts [Msg [(L "Content-Type", L "application/pgp-encrypted")] (PStr (L "version: 1"));
             Msg [(L "Content-Type", L "application/octet-stream")]
                 (PStr (L "ENC" ++ enc_msg (Msg ((L "Content-Type", L "text/plain") :: map (fun g => (L "Autocrypt-Gossip", g)) gossip)
                                                (PStr (L "secret")))))]).

(** the gpg program an account named "a" uses *)
Lemma E0_bingpg s g : snd (@arun E0 _ (@get_bingpg E0 (L "a")) s) = Ok g ->
  g = BinGPG (Some (@own_gpghome E0 (L "a"))) (L "gpg") \/ g = BinGPG None (L "gpg").
Proof. 
  intros H. unfold get_bingpg in H. rewrite arun_bind in H.
  destruct (arun (own_config (L "a")) s) as [s1 [c|]]; [|discriminate H].
  destruct (nonempty (cf_bin c)); [|discriminate H]. cbn [negb] in H. unfold mk_bingpg in H.
  assert (Hf : @find_executable E0 (cf_bin c) = if text_eqb (cf_bin c) (L "gpg") then Some (cf_bin c) else None).
  { unfold find_executable. cbn. destruct (isabs (cf_bin c)); destruct (text_eqb (cf_bin c) (L "gpg")); reflexivity. }
  rewrite Hf in H.
  destruct (text_eqb_spec (cf_bin c) (L "gpg")) as [Eb|Eb].
  2:{ destruct (text_eqb (cf_mode c) (L "own")); [discriminate H|]. destruct (text_eqb (cf_mode c) (L "system")); discriminate H. }
  rewrite Eb in H. destruct (text_eqb (cf_mode c) (L "own")); [injection H as <-; left; reflexivity|].
  destruct (text_eqb (cf_mode c) (L "system")); [|discriminate H]. injection H as <-. right. reflexivity.
Qed.

(** what an encrypted mail opens as *)
Lemma E0_opens_as m d content : cipher_of m = Some (L "ENC" ++ d) -> @opens E0 (L "a") m content -> content = d.
Proof.
  intros Hc [s [g [enc [s' [infos [H1 [H2 H3]]]]]]]. apply E0_bingpg in H1. rewrite Hc in H2. injection H2 as <-.
  destruct H1 as [->| ->]; vm_compute in H3; injection H3 as <- _; reflexivity.
Qed.
Lemma E0_imports_keyB' : @imports_as E0 (L "a") keyB (skipn 3 keyB).
Proof. intros s g s' H. apply E0_bingpg in H. destruct H as [->| ->]; vm_compute; reflexivity. Qed.
Lemma dec_pairs_enc h r : dec_pairs (length h) (concat (map (fun kv => enc_text (fst kv) ++ enc_text (snd kv)) h) ++ r) = Some (h, r).
Proof.
  induction h as [|[k v] h IH]; [reflexivity|]. cbn [length map concat dec_pairs fst snd]. unfold dec_pair.
  rewrite <- !app_assoc, dec_enc_text, dec_enc_text, IH. reflexivity.
Qed.
Lemma toy_parse_str h t : toy_parse (enc_msg (Msg h (PStr t))) = Msg h (PStr t).
Proof.
  unfold toy_parse. cbn [enc_msg]. set (n := length _). cbn [dec_msg]. rewrite Nat2N.id, dec_pairs_enc.
  rewrite <- (app_nil_r (enc_text t)), dec_enc_text. reflexivity.
Qed.
