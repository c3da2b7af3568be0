(** C91: a conversation that has become encrypted stays encrypted.  Statements only; proofs are
    in ConvProofs.v, the vocabulary is in ConvSpec.v. *)
From Verif Require Import Base PyStr Base64 Env Prog Chain Gpg Mime States Recommendation Account Cmdline Bot Fs Api Spec Obs PeerSpec RecSpec OutSpec
  CliSpec TalkSpec AudienceSpec Steps ConvSpec ConvProofs Toy Demo PropsOut PropsPeer PropsTalk.
#[local] Existing Instance E0.   (* for the examples *)

(** The key that goes out with a mail is the one gpg has for the account now (C64). *)
Theorem C64_key_of_the_ring_is_sent : forall (E : Env) s a m o, reachable s -> answer s (AOutgoing a m) = Ok (OOutgoing o) ->
  hget_all m (L "Autocrypt") = [] -> (length (getaddresses (hget_all m (L "From"))) <= 1)%nat ->
  get_content_type m <> L "multipart/report" -> plain_address (sender_of m) ->
  exists c kh key, own_of s a = Some (c, kh) /\ gives_out s (after s (AOutgoing a m)) kh key /\
    (is_bytes key = true -> key <> [] -> sender_of (out_msg o) = sender_of m /\ carries (out_msg o) key (cf_pref c)).
Proof. exact @sent_key. Qed.
Print Assumptions C64_key_of_the_ring_is_sent.

(** Whoever has processed a mail of the other knows the key of the other, *)
Theorem C91_first_mail : forall (E : Env) acct adr w es i r ign nd x d, strangers acct adr w -> honestly acct adr w (es ++ [Gets i r ign nd]) ->
  let s := w_at (goes acct w es) i in
  answer s (AIncoming (acct i) r ign nd) = Ok (OIncoming (Some x)) -> dated r d -> (0 <= Z.min d (clock (a_tick s)))%Z ->
  exists key kh, acquainted acct adr (goes acct w (es ++ [Gets i r ign nd])) i key kh.
Proof. exact @c91_first. Qed.
Print Assumptions C91_first_mail.

(** for good, whatever the two and the network do, *)
Theorem C91_stays_acquainted : forall (E : Env) acct adr w es1 es2 i key kh, strangers acct adr w -> honestly acct adr w (es1 ++ es2) ->
  acquainted acct adr (goes acct w es1) i key kh -> exists key' kh', acquainted acct adr (goes acct w (es1 ++ es2)) i key' kh'.
Proof. exact @c91_stays. Qed.
Print Assumptions C91_stays_acquainted.

(** and each mail to the other is encrypted to that key, without having to ask for it. *)
Theorem C91_letters_are_encrypted : forall (E : Env) acct adr w es i key kh m o y, strangers acct adr w -> honestly acct adr w es ->
  let w' := goes acct w es in let s := w_at w' i in acquainted acct adr w' i key kh ->
  answer s (AOutgoing (acct i) m) = Ok (OOutgoing o) -> targets m = [y] -> norm y = norm (adr (negb i)) -> norm y <> from_addr m ->
  control m <> Some (L "no") ->
  is_encrypted (out_msg o) = Ok true /\
  (is_encrypted m = Ok false -> exists own khs, encrypted_for s (after s (AOutgoing (acct i) m)) (acct i) m o own khs /\ In kh khs).
Proof. exact @c91_letters. Qed.
Print Assumptions C91_letters_are_encrypted.

(** bob writes, alice reads it twice and looks at something else, and answers. *)
Definition acct2 (i : bool) : text := if i then L "b" else L "a".
Definition adr2 (i : bool) : text := if i then bob else alice.
Definition world0 : world := World (fun i => if i then bobs else alices) (fun _ => []).
Definition read_hello : list event := [Sends true hello; Gets false hello_got false false].
Definition later : list event := [Gets false hello_got false false; Else false (in_a (ac_mail carol alice (L "1500") (L "<c>") (L "mutual") keyC)); Sends false reply].
Lemma E0_bingpg_b s g : snd (@arun E0 _ (@get_bingpg E0 (L "b")) s) = Ok g ->
  g = BinGPG (Some (@own_gpghome E0 (L "b"))) (L "gpg") \/ g = BinGPG None (L "gpg").
Proof.
  intros H. unfold get_bingpg in H. rewrite arun_bind in H.
  destruct (arun (own_config (L "b")) s) as [s1 [c|]]; [|discriminate H].
  destruct (nonempty (cf_bin c)); [|discriminate H]. cbn [negb] in H. unfold mk_bingpg in H.
  assert (Hf : @find_executable E0 (cf_bin c) = if text_eqb (cf_bin c) (L "gpg") then Some (cf_bin c) else None).
  { unfold find_executable. cbn. destruct (isabs (cf_bin c)); destruct (text_eqb (cf_bin c) (L "gpg")); reflexivity. }
  rewrite Hf in H.
  destruct (text_eqb_spec (cf_bin c) (L "gpg")) as [Eb|Eb].
  2:{ destruct (text_eqb (cf_mode c) (L "own")); [discriminate H|]. destruct (text_eqb (cf_mode c) (L "system")); discriminate H. }
  rewrite Eb in H. destruct (text_eqb (cf_mode c) (L "own")); [injection H as <-; left; reflexivity|].
  destruct (text_eqb (cf_mode c) (L "system")); [|discriminate H]. injection H as <-. right. reflexivity.
Qed.
Lemma E0_imports_own_b : @imports_as E0 (L "b") own_key (skipn 3 own_key).
Proof. intros s g s' H. apply E0_bingpg_b in H. destruct H as [->| ->]; vm_compute; reflexivity. Qed.
Lemma hello_on_the_way w : w_way w true = [] -> w_way w false = [hello_sent] -> exists o, In o (w_way w false) /\ delivered o hello_got.
Proof. intros _ ->. exists hello_sent. split; [left; reflexivity|]. repeat split; vm_compute; reflexivity. Qed.
Lemma good_letter (w : world) i m : (i = true -> exported (w_at w i) (after (w_at w i) (AOutgoing (acct2 i) m)) = [own_key]) ->
  (i = false -> exported (w_at w i) (after (w_at w i) (AOutgoing (acct2 i) m)) = [own_key]) ->
  sender_of m = name_of adr2 i -> hget_all m (L "Autocrypt") = [] -> (length (getaddresses (hget_all m (L "From"))) <= 1)%nat ->
  get_content_type m <> L "multipart/report" -> plain_address (sender_of m) -> letter acct2 adr2 w i m.
Proof.
  intros H1 H2 H3 H4 H5 H6 H7. do 5 (split; [assumption|]). intros kh key Hg. apply gives_out_exported in Hg.
  assert (key = own_key) as ->. { destruct i; [rewrite H1 in Hg by reflexivity|rewrite H2 in Hg by reflexivity]; destruct Hg as [<-|[]]; reflexivity. }
  split; [vm_compute; reflexivity|]. split; [vm_compute; discriminate|]. exists (skipn 3 own_key). destruct i; [exact E0_imports_own|exact E0_imports_own_b].
Qed.
Example C91_example : strangers acct2 adr2 world0 /\ honestly acct2 adr2 world0 (read_hello ++ later) /\
  (exists x, answer alices (in_a hello_got) = Ok (OIncoming (Some x))) /\ dated hello_got (1000 * sec) /\
  (0 <= Z.min (1000 * sec) (clock (a_tick alices)))%Z /\
  (let w := goes acct2 world0 (read_hello ++ later) in
   targets reply = [bob] /\ norm bob <> from_addr reply /\ control reply = None /\
   match w_way w true with [o] => is_encrypted o = Ok true | _ => False end).
Proof.
  split.
  { intros [|]; (split; [apply reachable_after_all, reachable_init|]); (split; [do 2 eexists; split; vm_compute; reflexivity|]);
      (split; [eexists; split; [vm_compute; reflexivity|split; vm_compute; reflexivity]|reflexivity]). }
  split.
  { split; [apply good_letter; [intros _; vm_compute; reflexivity|intros H; discriminate H|vm_compute; reflexivity|vm_compute; reflexivity|vm_compute; lia|vm_compute; discriminate|split; [vm_compute; intuition discriminate|vm_compute; reflexivity]]|].
    split; [apply hello_on_the_way; vm_compute; reflexivity|]. split; [apply hello_on_the_way; vm_compute; reflexivity|].
    split; [split; [vm_compute; reflexivity|split; [vm_compute; reflexivity|]]|].
    { intros m ign nd H. injection H as <- <- <-. vm_compute. discriminate. }
    split; [|exact I]. apply good_letter; [intros H; discriminate H|intros _; vm_compute; reflexivity|vm_compute; reflexivity|vm_compute; reflexivity|vm_compute; lia|vm_compute; discriminate|split; [vm_compute; intuition discriminate|vm_compute; reflexivity]]. }
  split; [eexists; vm_compute; reflexivity|]. split; [vm_compute; reflexivity|]. split; [vm_compute; discriminate|]. cbv zeta.
  do 2 (split; [vm_compute; reflexivity || (vm_compute; discriminate)|]). split; vm_compute; reflexivity.
Qed.

(** If the other also writes with a program that does not send the key, it does not hold: after
    such a mail the answer goes out in clear, though the key is still there. *)
Definition from_phone : msg := mail bob alice (L "3000") (L "<p>") [].
Theorem C91_mail_without_key_refuted : exists (E : Env) s a mm m x i v', reached s /\
  let s' := after s (AIncoming a mm false false) in
  answer s (AIncoming a mm false false) = Ok (OIncoming (Some i)) /\ from_addr mm = x /\ targets m = [x] /\ is_encrypted m = Ok false /\
  peer_of s' a x = Some v' /\ pv_keyhandle v' <> [] /\
  match answer s (AOutgoing a m) with Ok (OOutgoing o) => is_encrypted (out_msg o) = Ok true | _ => False end /\
  match answer s' (AOutgoing a m) with Ok (OOutgoing o) => is_encrypted (out_msg o) = Ok false | _ => False end.
Proof.
  exists E0, (after alices (in_a hello_got)), (L "a"), from_phone, reply, bob. do 2 eexists.
  split; [apply reached_after, reached_after_all, reached_init|]. cbv zeta.
  do 5 (split; [vm_compute; reflexivity|]). split; [vm_compute; discriminate|]. split; vm_compute; reflexivity.
Qed.
Print Assumptions C91_mail_without_key_refuted.
