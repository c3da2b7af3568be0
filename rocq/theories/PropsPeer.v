(** C08-C19: what is known about peers.  Statements only; proofs are in PeerProofs*.v.
    [peer_of s a x] is what the account [a] reports about the address [x] in state [s];
    [pv_latest_ac] is the newest recorded mail with a key, [pv_ac_timestamp] its date. *)
From Verif Require Import Base PyStr Base64 Env Prog Chain Gpg Mime States Account Fs Api Spec PeerSpec
  PeerProofs PeerProofs2 PeerProofs3 PeerProofs4 Toy Demo.
From Coq Require Import Permutation.
#[local] Existing Instance E0.   (* for the examples *)
Open Scope Z_scope.

(** ** C08 *)
(** From any reachable state and through any session of mails in any order: the Autocrypt
    timestamp is the date of the recorded entry; the entry is the old one or one offered by a
    mail of the session; and no mail taken in the session is dated later. *)
Theorem C08_newest_key_wins : forall (E : Env) s h a x v, reachable s -> peer_of s a x = Some v ->
  (forall c, In c h -> plain a c = true) ->
  exists v', peer_of (after_all s h) a x = Some v' /\
    pv_ac_timestamp v' = match pv_latest_ac v' with Some e => me_date e | None => 0 end /\
    (pv_latest_ac v' = pv_latest_ac v \/
     exists e, pv_latest_ac v' = Some e /\ offered_in s h a (norm x) (offer_of e)) /\
    pv_ac_timestamp v <= pv_ac_timestamp v' /\
    forall o, taken_in s h a (norm x) o -> of_date o <= pv_ac_timestamp v' /\ pv_latest_ac v' <> None.
Proof. exact @c08. Qed.
Print Assumptions C08_newest_key_wins.

(** For a peer without a key so far: the key is one offered with maximal date, or there was none. *)
Theorem C08_newest_key_of_a_new_peer : forall (E : Env) s h a x v,
  reachable s -> peer_of s a x = Some v -> pv_latest_ac v = None ->
  (forall c, In c h -> plain a c = true) ->
  exists v', peer_of (after_all s h) a x = Some v' /\
    match pv_latest_ac v' with
    | None => pv_ac_timestamp v' = 0 /\ pv_direct v' = false /\ forall o, ~ taken_in s h a (norm x) o
    | Some e => pv_ac_timestamp v' = me_date e /\ offered_in s h a (norm x) (offer_of e) /\
                forall o, taken_in s h a (norm x) o -> of_date o <= me_date e
    end.
Proof. exact @c08_fresh. Qed.
Print Assumptions C08_newest_key_of_a_new_peer.

(** The order of arrival does not matter. *)
Theorem C08_order_of_arrival_does_not_matter : forall (E : Env) s h1 h2 a x v,
  reachable s -> peer_of s a x = Some v -> pv_latest_ac v = None ->
  Permutation h1 h2 -> (forall c, In c h1 -> exists m, mail_call a m c) ->
  all_processed s h1 -> all_processed s h2 ->
  (* all dates are in the past *)
  (forall m c d, In c h1 -> mail_call a m c -> dated m d -> forall i, d <= clock i) ->
  (* mails of the peer with a key have different dates *)
  (forall m1 m2 c1 c2 d k1 p1 k2 p2, In c1 h1 -> In c2 h1 -> mail_call a m1 c1 -> mail_call a m2 c2 ->
     sender_of m1 = norm x -> sender_of m2 = norm x -> carries m1 k1 p1 -> carries m2 k2 p2 ->
     dated m1 d -> dated m2 d -> m1 = m2) ->
  exists v1 v2, peer_of (after_all s h1) a x = Some v1 /\ peer_of (after_all s h2) a x = Some v2 /\
    option_map offer_of (pv_latest_ac v1) = option_map offer_of (pv_latest_ac v2) /\
    pv_ac_timestamp v1 = pv_ac_timestamp v2.
Proof. exact @c08_order. Qed.
Print Assumptions C08_order_of_arrival_does_not_matter.

(** Any call at all, also the command line and the bot: the recorded key changes only to one
    that is not older, from a mail of that peer which carries it, or by a manual import. *)
Theorem C08_key_changes_only_for_a_newer_one : forall (E : Env) s c a x v,
  reachable s -> peer_of s a x = Some v -> deletes a c = false ->
  exists v', peer_of (after s c) a x = Some v' /\
    (pv_latest_ac v' = pv_latest_ac v \/
     exists e, pv_latest_ac v' = Some e /\ pv_ac_timestamp v <= me_date e /\
       ((exists m d, In m (mails_for a c) /\ sender_of m = norm x /\ dated m d /\ me_date e <= d /\
           carries m (me_keydata e) (me_pref e)) \/
        exists addr key, c = AImport a addr key (me_pref e))).
Proof. exact @c08_any_call. Qed.
Print Assumptions C08_key_changes_only_for_a_newer_one.

Definition bob1 : msg := ac_mail bob alice (L "1000") (L "<1>") (L "mutual") keyB.
Definition bob2 : msg := ac_mail bob alice (L "2000") (L "<2>") [] keyC.
Definition bob_of (h : list api) : option peer_view := peer_of (after_all ast0 h) (L "a") bob.
Lemma E0_reached h : @reached E0 (@after_all E0 ast0 h). Proof. exists h. reflexivity. Qed.
Lemma E0_reachable h : @reachable E0 (@after_all E0 ast0 h). Proof. exact (reached_reachable _ (E0_reached h)). Qed.
Lemma bob1_carries : @carries E0 bob1 keyB (L "mutual").
Proof.
  split; [vm_compute; discriminate|]. split; [vm_compute; lia|].
  exists [], (ac_value bob (L "mutual") keyB), []. split; [vm_compute; reflexivity|].
  split; [exists []; vm_compute; reflexivity|]. intros w [].
Qed.
Lemma bob2_carries : @carries E0 bob2 keyC (L "nopreference").
Proof.
  split; [vm_compute; discriminate|]. split; [vm_compute; lia|].
  exists [], (ac_value bob [] keyC), []. split; [vm_compute; reflexivity|].
  split; [exists []; vm_compute; reflexivity|]. intros w [].
Qed.
(** the newer mail arrives first: the older one is taken, and changes nothing *)
Definition late : list api := [in_a bob2; in_a bob1].
Definition bob1_offer : offer := Offer (1000 * sec) (L "mutual") keyB (L "<1>").
Example C08_example : let s := after_all ast0 [add_a] in
  option_map (fun v => (pv_latest_ac v, pv_ac_timestamp v)) (bob_of [add_a]) = Some (None, 0) /\
  (forall c, In c late -> plain (L "a") c = true) /\
  taken_in s late (L "a") (norm bob) bob1_offer /\
  option_map (fun v => (option_map offer_of (pv_latest_ac v), pv_ac_timestamp v, pv_keydata v)) (bob_of (add_a :: late))
  = Some (Some (Offer (2000 * sec) (L "nopreference") keyC (L "<2>")), 2000 * sec, keyC).
Proof.
  cbv zeta. split; [vm_compute; reflexivity|].
  split; [intros c [<-|[<-|[]]]; reflexivity|]. split; [|vm_compute; reflexivity].
  exists [in_a bob2], (in_a bob1), []. eexists. split; [reflexivity|]. split; [|vm_compute; reflexivity].
  exists bob1, false, false, (1000 * sec). split; [reflexivity|]. split; [vm_compute; reflexivity|].
  split; [vm_compute; reflexivity|]. split; [vm_compute; reflexivity|]. split; [vm_compute; reflexivity|].
  split; [vm_compute; discriminate|]. split; [discriminate|]. exact bob1_carries.
Qed.
(** both orders, and the hypotheses of the theorem about the order *)
Example C08_order_example : let s := after_all ast0 [add_a] in let h1 := [in_a bob1; in_a bob2] in
  Permutation h1 late /\ (forall c, In c h1 -> exists m, mail_call (L "a") m c) /\
  all_processed s h1 /\ all_processed s late /\
  (forall i, 2000 * sec <= clock i) /\
  (forall m1 m2 d, In m1 [bob1; bob2] -> In m2 [bob1; bob2] -> dated m1 d -> dated m2 d -> m1 = m2).
Proof.
  cbv zeta. split; [apply perm_swap|].
  split; [intros c [<-|[<-|[]]]; eexists; eexists; reflexivity|].
  split; [unfold all_processed; vm_compute; repeat constructor; eexists; reflexivity|].
  split; [unfold all_processed; vm_compute; repeat constructor; eexists; reflexivity|].
  split; [intros i; change (2000 * sec <= (1000000 + Z.of_nat i) * sec); apply Z.mul_le_mono_nonneg_r; [discriminate|lia]|].
  intros m1 m2 d [<-|[<-|[]]] [<-|[<-|[]]] H1 H2; try reflexivity; unfold dated in *; vm_compute in H1, H2; congruence.
Qed.

(** ** C09 *)
Theorem C09_timestamp_never_goes_back : forall (E : Env) s c a x v,
  reachable s -> peer_of s a x = Some v -> deletes a c = false ->
  exists v', peer_of (after s c) a x = Some v' /\ pv_ac_timestamp v <= pv_ac_timestamp v'.
Proof. exact @c09. Qed.
Print Assumptions C09_timestamp_never_goes_back.

(** a mail from the past, and a call that raises *)
Example C09_example : let c := AImport (L "a") (Some bob) (L "junk") (L "nopreference") in
  option_map pv_ac_timestamp (bob_of [add_a; in_a bob2]) = Some (2000 * sec) /\
  option_map pv_ac_timestamp (bob_of [add_a; in_a bob2; in_a bob1]) = Some (2000 * sec) /\
  deletes (L "a") c = false /\ (exists e, answer (after_all ast0 [add_a; in_a bob2]) c = Err e) /\
  option_map pv_ac_timestamp (bob_of [add_a; in_a bob2; c]) = Some (2000 * sec).
Proof. cbv zeta. do 3 (split; [vm_compute; reflexivity|]). split; [eexists; vm_compute; reflexivity|vm_compute; reflexivity]. Qed.

(** ** C10: false in general.  The full statement: after any session of mails, [pv_last_seen]
    is the largest date of a processed mail of the peer, and never decreases. *)
(** What holds always *)
Theorem C10_last_seen_not_before_autocrypt_partial : forall (E : Env) s a x v,
  reachable s -> peer_of s a x = Some v -> 0 <= pv_ac_timestamp v <= pv_last_seen v.
Proof. exact @c10_seen_ge_ts. Qed.
Print Assumptions C10_last_seen_not_before_autocrypt_partial.

(** One call: last_seen stays, or becomes the date of the mail; it decreases only for a mail
    with a key that is not older than the newest key. *)
Theorem C10_one_call_partial : forall (E : Env) s c a x v,
  reachable s -> peer_of s a x = Some v -> plain a c = true ->
  exists v', peer_of (after s c) a x = Some v' /\
    (pv_last_seen v' = pv_last_seen v \/ mailed s c a (norm x) (pv_last_seen v')) /\
    (pv_last_seen v' < pv_last_seen v ->
       exists m ign nd key pref, c = AIncoming a m ign nd /\ sender_of m = norm x /\ key <> [] /\ carries m key pref /\
         pv_ac_timestamp v <= pv_last_seen v').
Proof. exact @c10_step. Qed.
Print Assumptions C10_one_call_partial.

(** The full statement for mails that arrive in the order of their dates. *)
Theorem C10_last_seen_is_the_newest_date_partial : forall (E : Env) s h a x v,
  reachable s -> peer_of s a x = Some v -> pv_latest_ac v = None ->
  (forall c, In c h -> plain a c = true) -> in_order s h a (norm x) ->
  (forall d, mailed_in s h a (norm x) d -> pv_last_seen v <= d) ->
  exists v', peer_of (after_all s h) a x = Some v' /\ pv_last_seen v <= pv_last_seen v' /\
    (pv_last_seen v' = pv_last_seen v \/ mailed_in s h a (norm x) (pv_last_seen v')) /\
    forall d, processed_in s h a (norm x) d -> d <= pv_last_seen v'.
Proof. exact @c10_ordered. Qed.
Print Assumptions C10_last_seen_is_the_newest_date_partial.

(** A mail without key from 3000, then one with a key from 2000: last_seen goes back to 2000. *)
Definition bob3 : msg := mail bob alice (L "3000") (L "<3>") [].
Theorem C10_last_seen_refuted : exists (E : Env) s a x m v v',
  reached s /\ peer_of s a x = Some v /\ sender_of m = norm x /\
  (exists i, answer s (AIncoming a m false false) = Ok (OIncoming (Some i))) /\
  peer_of (after s (AIncoming a m false false)) a x = Some v' /\ pv_last_seen v' < pv_last_seen v.
Proof.
  exists E0, (after_all ast0 [add_a; in_a bob3]), (L "a"), bob, bob2. do 2 eexists.
  split; [apply E0_reached|]. split; [vm_compute; reflexivity|]. split; [vm_compute; reflexivity|].
  split; [eexists; vm_compute; reflexivity|]. split; [vm_compute; reflexivity|]. vm_compute. reflexivity.
Qed.
Print Assumptions C10_last_seen_refuted.

Example C10_example : let h := [in_a bob1; in_a bob2; in_a bob3] in
  (forall c, In c h -> plain (L "a") c = true) /\
  map (fun n => option_map (fun v => (pv_ac_timestamp v, pv_last_seen v)) (bob_of (add_a :: firstn n h))) (seq 0 4)
  = [Some (0, 0); Some (1000 * sec, 1000 * sec); Some (2000 * sec, 2000 * sec); Some (2000 * sec, 3000 * sec)].
Proof. cbv zeta. split; [intros c [<-|[<-|[<-|[]]]]; reflexivity|vm_compute; reflexivity]. Qed.

(** ** C11 *)
(** Any call that processes no mail from the peer and imports no key by hand, in particular
    gossip about it. *)
Theorem C11_gossip_never_overrides : forall (E : Env) s c a x v,
  reachable s -> peer_of s a x = Some v -> deletes a c = false -> imports a c = false ->
  (forall m, In m (mails_for a c) -> sender_of m <> norm x) ->
  exists v', peer_of (after s c) a x = Some v' /\
    (pv_direct v = true -> but_gossip v' = but_gossip v) /\
    pv_last_seen v' = pv_last_seen v /\ pv_ac_timestamp v' = pv_ac_timestamp v /\
    pv_direct v' = pv_direct v /\ pv_latest_ac v' = pv_latest_ac v.
Proof. exact @c11. Qed.
Print Assumptions C11_gossip_never_overrides.

Definition gossip_mail (date id : text) (key : bytes) : msg :=
  enc_mail carol (L "alice@a.org, bob@b.org") date id [ac_value bob [] key] [].
(** the gossip is recorded, the direct key stays in use *)
Example C11_example : let m := gossip_mail (L "5000") (L "<g>") keyA in let h := [add_a; in_a bob2] in
  sender_of m <> norm bob /\
  option_map (fun v => (pv_direct v, pv_keydata v, option_map ge_keydata (pv_latest_gossip v))) (bob_of h)
  = Some (true, keyC, None) /\
  option_map (fun v => (pv_direct v, pv_keydata v, option_map ge_keydata (pv_latest_gossip v))) (bob_of (h ++ [in_a m]))
  = Some (true, keyC, Some keyA).
Proof. cbv zeta. split; [vm_compute; discriminate|]. split; vm_compute; reflexivity. Qed.

(** ** C12: false in general.  The full statement is [C12_gossip_moves_forward_partial]
    without the hypothesis on the date of the mail. *)
Theorem C12_gossip_has_the_date_of_its_mail_partial : forall (E : Env) s a m ign nd x v,
  reachable s -> peer_of s a x = Some v ->
  exists v', peer_of (after s (AIncoming a m ign nd)) a x = Some v' /\
    (pv_latest_gossip v' = pv_latest_gossip v \/
     exists g d, pv_latest_gossip v' = Some g /\ dated m d /\ ge_date g = Z.min d (clock (a_tick s)) /\
       ge_id g = msg_id_text m /\ nd = false /\ is_encrypted m = Ok true).
Proof. exact @c12_step. Qed.
Print Assumptions C12_gossip_has_the_date_of_its_mail_partial.

Theorem C12_gossip_moves_forward_partial : forall (E : Env) s a m ign nd x v g d,
  reachable s -> peer_of s a x = Some v -> pv_latest_gossip v = Some g ->
  dated m d -> ge_date g <= Z.min d (clock (a_tick s)) ->
  exists v' g', peer_of (after s (AIncoming a m ign nd)) a x = Some v' /\ pv_latest_gossip v' = Some g' /\ ge_date g <= ge_date g'.
Proof. exact @c12_ordered. Qed.
Print Assumptions C12_gossip_moves_forward_partial.

Definition gossip_old : msg := gossip_mail (L "2000") (L "<g1>") keyA.
Definition gossip_new : msg := gossip_mail (L "5000") (L "<g2>") keyB.
(** Gossip from 5000 about a peer without direct key; gossip from 2000 then replaces it. *)
Theorem C12_older_gossip_refuted : exists (E : Env) s a x m v v' g g',
  reached s /\ peer_of s a x = Some v /\ pv_direct v = false /\ pv_latest_gossip v = Some g /\
  peer_of (after s (AIncoming a m false false)) a x = Some v' /\ pv_latest_gossip v' = Some g' /\
  ge_date g' < ge_date g /\ pv_keydata v = ge_keydata g /\ pv_keydata v' = ge_keydata g' /\ ge_keydata g' <> ge_keydata g.
Proof.
  exists E0, (after_all ast0 [add_a; in_a gossip_new]), (L "a"), bob, gossip_old. do 4 eexists.
  split; [apply E0_reached|]. do 5 (split; [vm_compute; reflexivity|]).
  do 3 (split; [vm_compute; reflexivity|]). vm_compute. discriminate.
Qed.
Print Assumptions C12_older_gossip_refuted.

Example C12_example :
  option_map (fun v => (pv_direct v, pv_keydata v)) (bob_of [add_a; in_a gossip_old]) = Some (false, keyA) /\
  dated gossip_new (5000 * sec) /\
  option_map (fun v => (pv_direct v, pv_keydata v)) (bob_of [add_a; in_a gossip_old; in_a gossip_new]) = Some (false, keyB).
Proof. split; [vm_compute; reflexivity|]. split; vm_compute; reflexivity. Qed.

(** ** C13: false in general.  The full statement has no hypotheses about encryption and
    about the import of the key. *)
Theorem C13_processing_again_changes_nothing_partial : forall (E : Env) s a m ign1 ign2 nd1 nd2 i d, reachable s ->
  (nd1 = true \/ is_encrypted m <> Ok true) -> (nd2 = true \/ is_encrypted m <> Ok true) ->
  (forall key pref, carries m key pref -> exists kh, imports_as a key kh) ->
  answer s (AIncoming a m ign1 nd1) = Ok (OIncoming (Some i)) ->
  let s1 := after s (AIncoming a m ign1 nd1) in
  dated m d -> Z.min d (clock (a_tick s)) = Z.min d (clock (a_tick s1)) ->
  forall n, alog (after s1 (AIncoming a m ign2 nd2)) n = alog s1 n.
Proof. exact @c13. Qed.
Print Assumptions C13_processing_again_changes_nothing_partial.

(** A key that gpg cannot import is recorded again every time the mail is processed. *)
Definition bad_key_mail : msg := ac_mail bob alice (L "1000") (L "<1>") (L "mutual") (L "junk").
Theorem C13_processing_again_refuted : exists (E : Env) s a m n,
  reached s /\ is_encrypted m = Ok false /\
  let s1 := after s (AIncoming a m false false) in
  (exists i, answer s (AIncoming a m false false) = Ok (OIncoming (Some i))) /\
  (exists d, dated m d /\ Z.min d (clock (a_tick s)) = Z.min d (clock (a_tick s1))) /\
  length (alog s1 n) = 1%nat /\ length (alog (after s1 (AIncoming a m false false)) n) = 2%nat.
Proof.
  exists E0, (after_all ast0 [add_a]), (L "a"), bad_key_mail, (L "peer:a:bob@b.org").
  split; [apply E0_reached|]. split; [vm_compute; reflexivity|]. cbv zeta.
  split; [eexists; vm_compute; reflexivity|].
  split; [exists (1000 * sec); split; vm_compute; reflexivity|]. split; vm_compute; reflexivity.
Qed.
Print Assumptions C13_processing_again_refuted.

Lemma E0_imports_keyB : @imports_as E0 (L "a") keyB (skipn 3 keyB).
Proof. intros s g s' H. apply E0_bingpg in H. destruct H as [->| ->]; vm_compute; reflexivity. Qed.
Example C13_example : let s := after_all ast0 [add_a] in let s1 := after s (in_a bob1) in
  is_encrypted bob1 = Ok false /\ carries bob1 keyB (L "mutual") /\ imports_as (L "a") keyB (skipn 3 keyB) /\
  (exists i, answer s (in_a bob1) = Ok (OIncoming (Some i))) /\ dated bob1 (1000 * sec) /\
  Z.min (1000 * sec) (clock (a_tick s)) = Z.min (1000 * sec) (clock (a_tick s1)) /\
  length (alog s1 (L "peer:a:bob@b.org")) = 1%nat.
Proof.
  cbv zeta. split; [vm_compute; reflexivity|]. split; [exact bob1_carries|]. split; [exact E0_imports_keyB|].
  split; [eexists; vm_compute; reflexivity|]. split; [vm_compute; reflexivity|]. split; vm_compute; reflexivity.
Qed.

(** ** C14 *)
Theorem C14_mail_touches_only_its_peers : forall (E : Env) s a m ign nd, reachable s ->
  let s' := after s (AIncoming a m ign nd) in
  accounts_of s' = accounts_of s /\
  (forall b, own_of s' b = own_of s b) /\
  (forall b y, verif_of s' b y = verif_of s b y) /\
  (forall b y, b <> a -> peer_of s' b y = peer_of s b y) /\
  (forall b, b <> a -> peers_of s' b = peers_of s b) /\
  (forall y, norm y <> sender_of m ->
     (nd = true \/ is_encrypted m <> Ok true \/ forall content, opens a m content -> ~ recipient (opened_as m content) (norm y)) ->
     peer_of s' a y = peer_of s a y).
Proof. exact @c14. Qed.
Print Assumptions C14_mail_touches_only_its_peers.

(** a mail that changes the sender (no key) and a recipient (gossip) leaves a third peer alone *)
Lemma E0_opens content : @opens E0 (L "a") gossip_new content ->
  content = skipn 3 (match cipher_of gossip_new with Some c => c | None => [] end).
Proof.
  intros [s [g [enc [s' [infos [Hg [Hc Hd]]]]]]]. apply E0_bingpg in Hg. rewrite Hc.
  injection Hc as <-. destruct Hg as [->| ->]; vm_compute in Hd; injection Hd as <- _; vm_compute; reflexivity.
Qed.
Example C14_example : let s := after_all ast0 demo in let s' := after s (in_a gossip_new) in
  peer_of s' (L "a") bob <> peer_of s (L "a") bob /\ peer_of s' (L "a") carol <> peer_of s (L "a") carol /\
  norm (L "dave@d.org") <> sender_of gossip_new /\
  (forall content, opens (L "a") gossip_new content -> ~ recipient (opened_as gossip_new content) (norm (L "dave@d.org"))) /\
  own_of s (L "b") <> None.
Proof.
  cbv zeta. split; [vm_compute; discriminate|]. split; [vm_compute; discriminate|]. split; [vm_compute; discriminate|].
  split; [|vm_compute; discriminate].
  intros content H. apply E0_opens in H. subst content. intros [r [H1 H2]]. vm_compute in H1.
  destruct H1 as [<-|[<-|[]]]; vm_compute in H2; discriminate.
Qed.

(** ** C15 *)
Theorem C15_unencrypted_mail_plants_no_gossip : forall (E : Env) s a m ign nd x v,
  reachable s -> nd = true \/ is_encrypted m <> Ok true -> peer_of s a x = Some v ->
  exists v', peer_of (after s (AIncoming a m ign nd)) a x = Some v' /\ pv_latest_gossip v' = pv_latest_gossip v /\
    (norm x <> sender_of m -> v' = v).
Proof. exact @c15. Qed.
Print Assumptions C15_unencrypted_mail_plants_no_gossip.

(** the same gossip header, in a mail that is not encrypted *)
Example C15_example : let m := mail carol (L "alice@a.org, bob@b.org") (L "5000") (L "<9>") [(L "Autocrypt-Gossip", ac_value bob [] keyA)] in
  is_encrypted m = Ok false /\ is_encrypted gossip_new = Ok true /\
  option_map pv_keydata (bob_of [add_a; in_a m]) = Some [] /\
  option_map pv_keydata (bob_of [add_a; AIncoming (L "a") gossip_new false true]) = Some [] /\
  option_map pv_keydata (bob_of [add_a; in_a gossip_new]) = Some keyB.
Proof. cbv zeta. do 4 (split; [vm_compute; reflexivity|]). vm_compute. reflexivity. Qed.

(** ** C16 *)
(** Every date reported is at most some clock reading taken before. *)
Theorem C16_dates_are_in_the_past : forall (E : Env) s a x v, reachable s -> peer_of s a x = Some v ->
  (forall d, d = pv_ac_timestamp v \/ d = pv_last_seen v -> d = 0 \/ exists i, (i < a_tick s)%nat /\ d <= clock i) /\
  (forall g, pv_latest_gossip v = Some g -> exists i, (i < a_tick s)%nat /\ ge_date g <= clock i).
Proof. exact @c16_past. Qed.
Print Assumptions C16_dates_are_in_the_past.

Theorem C16_dates_are_not_after_now : forall (E : Env) s a x v,
  (forall i j, (i <= j)%nat -> clock i <= clock j) -> 0 <= clock 0%nat ->
  reachable s -> peer_of s a x = Some v ->
  pv_ac_timestamp v <= clock (a_tick s) /\ pv_last_seen v <= clock (a_tick s) /\
  (forall g, pv_latest_gossip v = Some g -> ge_date g <= clock (a_tick s)).
Proof. exact @c16_now. Qed.
Print Assumptions C16_dates_are_not_after_now.

(** So a mail with a current (or future) date always gets its key accepted. *)
Theorem C16_current_mail_is_never_blocked : forall (E : Env) s a m ign nd x v d key pref i,
  (forall i j, (i < j)%nat -> clock i < clock j) -> 0 < clock 0%nat ->
  reachable s -> peer_of s a x = Some v -> sender_of m = norm x ->
  dated m d -> clock (a_tick s) <= d -> carries m key pref -> key <> [] ->
  answer s (AIncoming a m ign nd) = Ok (OIncoming (Some i)) ->
  exists v' e, peer_of (after s (AIncoming a m ign nd)) a x = Some v' /\ pv_latest_ac v' = Some e /\
    me_keydata e = key /\ me_pref e = pref /\ me_id e = msg_id_text m /\ me_date e = clock (a_tick s).
Proof. exact @c16_not_blocked. Qed.
Print Assumptions C16_current_mail_is_never_blocked.

Definition far : text := L "9000000".
Definition from_the_future : msg := ac_mail bob alice far (L "<8>") (L "mutual") keyB.
Definition from_the_future2 : msg := ac_mail bob alice (L "8000000") (L "<9>") [] keyC.
Lemma E0_clock_lt i j : (i < j)%nat -> @clock E0 i < @clock E0 j.
Proof.
  intros H. change ((1000000 + Z.of_nat i) * sec < (1000000 + Z.of_nat j) * sec).
  apply Z.mul_lt_mono_pos_r; [reflexivity|lia].
Qed.
Example C16_example : (forall i j, (i < j)%nat -> @clock E0 i < @clock E0 j) /\ 0 < @clock E0 0%nat /\
  let s := after_all ast0 [add_a; in_a from_the_future] in
  dated from_the_future2 (8000000 * sec) /\ clock (a_tick s) <= 8000000 * sec /\
  option_map (fun v => (pv_ac_timestamp v <? clock (a_tick s), pv_keydata v)) (bob_of [add_a; in_a from_the_future]) = Some (true, keyB) /\
  option_map pv_keydata (bob_of [add_a; in_a from_the_future; in_a from_the_future2]) = Some keyC.
Proof.
  split; [exact E0_clock_lt|]. split; [reflexivity|]. cbv zeta. split; [vm_compute; reflexivity|].
  split; [vm_compute; discriminate|]. split; vm_compute; reflexivity.
Qed.

(** ** C17 *)
Theorem C17_key_only_from_one_valid_header : forall (E : Env) s b m ign nd a x v,
  reachable s -> peer_of s a x = Some v ->
  exists v', peer_of (after s (AIncoming b m ign nd)) a x = Some v' /\
    (pv_latest_ac v' = pv_latest_ac v /\ pv_ac_timestamp v' = pv_ac_timestamp v /\ pv_direct v' = pv_direct v \/
     b = a /\ sender_of m = norm x /\
     exists e, pv_latest_ac v' = Some e /\ me_keydata e <> [] /\ carries m (me_keydata e) (me_pref e) /\
       pv_ac_timestamp v' = me_date e /\
       (pv_direct v' = true -> pv_keydata v' = me_keydata e /\ pv_pref v' = me_pref e)).
Proof. exact @c17. Qed.
Print Assumptions C17_key_only_from_one_valid_header.

(** two valid headers; a header for somebody else; a report *)
Example C17_example :
  let two := mail bob alice (L "1000") (L "<1>") [(L "Autocrypt", ac_value bob [] keyB); (L "Autocrypt", ac_value bob [] keyC)] in
  let other := mail bob alice (L "1000") (L "<1>") [(L "Autocrypt", ac_value carol [] keyB)] in
  let report := mail bob alice (L "1000") (L "<1>") [(L "Content-Type", L "multipart/report"); (L "Autocrypt", ac_value bob [] keyB)] in
  let good := mail bob alice (L "1000") (L "<1>") [(L "Autocrypt", ac_value carol [] keyC); (L "Autocrypt", ac_value bob [] keyB)] in
  map (fun m => option_map pv_keydata (bob_of [add_a; in_a m])) [two; other; report; good] = [Some []; Some []; Some []; Some keyB].
Proof. vm_compute. reflexivity. Qed.

(** ** C18: false for mails without Message-Id, which are all filed under the id "None", and
    for mails with an empty Message-Id, the id under which manual imports are filed.  The full
    statement has no hypotheses about the Message-Id. *)
Theorem C18_skipped_mail_was_seen_partial : forall (E : Env) h a m nd id,
  hget m (L "Message-Id") = Some id -> id <> [] -> id <> L "None" ->
  answer (after_all ast0 h) (AIncoming a m true nd) = Ok (OIncoming None) ->
  exists h1 c h2 m', h = h1 ++ c :: h2 /\ In m' (mails_for a c) /\ sender_of m' = sender_of m /\
    hget m' (L "Message-Id") = Some id.
Proof. exact @c18. Qed.
Print Assumptions C18_skipped_mail_was_seen_partial.

(** A mail without Message-Id that was never processed is skipped because an earlier, different
    mail of the same sender had no Message-Id either. *)
Definition no_id (date : text) (key : bytes) : msg :=
  Msg [(L "From", bob); (L "To", alice); (L "Date", date); (L "Autocrypt", ac_value bob [] key)] (PStr (L "hello")).
Theorem C18_skipped_mail_refuted : exists (E : Env) h a m,
  answer (after_all ast0 h) (AIncoming a m true false) = Ok (OIncoming None) /\
  forall c m', In c h -> In m' (mails_of c) -> m' <> m /\ dated m' (1000 * sec) /\ dated m (2000 * sec).
Proof.
  exists E0, [add_a; in_a (no_id (L "1000") keyB)], (L "a"), (no_id (L "2000") keyC).
  split; [vm_compute; reflexivity|].
  intros c m' [<-|[<-|[]]] Hm; [destruct Hm|]. destruct Hm as [<-|[]]. split; [discriminate|]. split; vm_compute; reflexivity.
Qed.
Print Assumptions C18_skipped_mail_refuted.

Example C18_example : hget bob1 (L "Message-Id") = Some (L "<1>") /\
  answer (after_all ast0 [add_a; in_a bob1]) (AIncoming (L "a") bob1 true false) = Ok (OIncoming None) /\
  (exists i, answer (after_all ast0 [add_a; in_a bob1]) (AIncoming (L "a") bob2 true false) = Ok (OIncoming (Some i))).
Proof. split; [vm_compute; reflexivity|]. split; [vm_compute; reflexivity|]. eexists. vm_compute. reflexivity. Qed.

(** ** C19 *)
(** For the key itself gossip that names the sender has to be left aside: it counts for peers
    without a direct key. *)
Theorem C19_mail_without_key_keeps_the_key : forall (E : Env) s a m ign nd x v,
  reachable s -> peer_of s a x = Some v -> sender_of m = norm x ->
  (forall k p, ~ carries m k p) ->
  exists v', peer_of (after s (AIncoming a m ign nd)) a x = Some v' /\
    pv_latest_ac v' = pv_latest_ac v /\ pv_ac_timestamp v' = pv_ac_timestamp v /\ pv_direct v' = pv_direct v /\
    pv_last_seen v <= pv_last_seen v' /\
    (pv_direct v = true \/ nd = true \/ is_encrypted m <> Ok true \/ (forall content, opens a m content -> ~ recipient (opened_as m content) (norm x)) ->
     pv_keydata v' = pv_keydata v /\ pv_keyhandle v' = pv_keyhandle v /\ pv_pref v' = pv_pref v).
Proof. exact @c19. Qed.
Print Assumptions C19_mail_without_key_keeps_the_key.

Example C19_example : sender_of bob3 = norm bob /\ (forall k p, ~ carries bob3 k p) /\
  option_map (fun v => (pv_last_seen v, pv_ac_timestamp v, pv_keydata v)) (bob_of [add_a; in_a bob2]) = Some (2000 * sec, 2000 * sec, keyC) /\
  option_map (fun v => (pv_last_seen v, pv_ac_timestamp v, pv_keydata v)) (bob_of [add_a; in_a bob2; in_a bob3]) = Some (3000 * sec, 2000 * sec, keyC).
Proof.
  split; [vm_compute; reflexivity|]. split; [|split; vm_compute; reflexivity].
  intros k p [_ [_ [pre [v [post [H _]]]]]]. vm_compute in H. destruct pre; discriminate.
Qed.
