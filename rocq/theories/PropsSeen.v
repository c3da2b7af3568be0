(** C10 and C12 over whole sessions, in any order of arrival.  Statements only; proofs are in
    SeenProofs.v. *)
From Verif Require Import Base PyStr Base64 Env Prog Chain Gpg Mime States Account Fs Api Spec PeerSpec SeenSpec
  SeenProofs Toy Demo PropsPeer.
#[local] Existing Instance E0.   (* for the examples *)
Open Scope Z_scope.

(** ** C10: what last_seen is after any session of mails in any order.  If no key was recorded,
    it is the newest date of all.  Otherwise it is the newest date since the mail, and with it,
    that brought the key now in use: what was seen before that mail no longer counts.  (The
    full statement of C10 would have the first case only.) *)
Theorem C10_newest_date_since_the_key_partial : forall (E : Env) s h a x v,
  reachable s -> peer_of s a x = Some v -> (forall c, In c h -> plain a c = true) ->
  exists v', peer_of (after_all s h) a x = Some v' /\
    ((pv_latest_ac v' = pv_latest_ac v /\ newest (pv_last_seen v) s h a (norm x) (pv_last_seen v')) \/
     exists h1 c h2 e, h = h1 ++ c :: h2 /\ pv_latest_ac v' = Some e /\ offered (after_all s h1) c a (norm x) (offer_of e) /\
       newest (me_date e) (after_all s (h1 ++ [c])) h2 a (norm x) (pv_last_seen v')).
Proof. exact @c10_since. Qed.
Print Assumptions C10_newest_date_since_the_key_partial.

(** without key from 3000; with a key from 2000; without key from 2500 and 1500 *)
Definition bob25 : msg := mail bob alice (L "2500") (L "<25>") [].
Definition bob15 : msg := mail bob alice (L "1500") (L "<15>") [].
Definition mixed : list api := [in_a bob3; in_a bob2; in_a bob25; in_a bob15].
Example C10_since_example : (forall c, In c mixed -> plain (L "a") c = true) /\
  map (fun n => option_map (fun v => (option_map me_date (pv_latest_ac v), pv_last_seen v)) (bob_of (add_a :: firstn n mixed))) (seq 0 5)
  = [Some (None, 0); Some (None, 3000 * sec); Some (Some (2000 * sec), 2000 * sec); Some (Some (2000 * sec), 2500 * sec);
     Some (Some (2000 * sec), 2500 * sec)].
Proof. split; [intros c [<-|[<-|[<-|[<-|[]]]]]; reflexivity|vm_compute; reflexivity]. Qed.

(** ** C12: the newest gossip after any session: as before, or from a mail of the session that
    was encrypted and gossiped this key about the peer. *)
Theorem C12_gossip_of_a_session : forall (E : Env) s h a x v,
  reachable s -> peer_of s a x = Some v -> (forall c, In c h -> plain a c = true) ->
  exists v', peer_of (after_all s h) a x = Some v' /\
    (pv_latest_gossip v' = pv_latest_gossip v \/
     exists g, pv_latest_gossip v' = Some g /\ gossiped_in s h a (norm x) g).
Proof. exact @c12_session. Qed.
Print Assumptions C12_gossip_of_a_session.

(** As long as mails come in the order of their dates, the date of the gossip never goes back.
    (The full statement of C12 would do without the order.) *)
Theorem C12_gossip_never_goes_back_partial : forall (E : Env) s h1 h2 a x v g,
  reachable s -> (forall c, In c (h1 ++ h2) -> plain a c = true) -> sorted s (h1 ++ h2) a -> peer_of s a x <> None ->
  (forall v0 g0 d, peer_of s a x = Some v0 -> pv_latest_gossip v0 = Some g0 -> received_in s (h1 ++ h2) a d -> ge_date g0 <= d) ->
  peer_of (after_all s h1) a x = Some v -> pv_latest_gossip v = Some g ->
  exists v' g', peer_of (after_all s (h1 ++ h2)) a x = Some v' /\ pv_latest_gossip v' = Some g' /\ ge_date g <= ge_date g'.
Proof. exact @c12_sorted. Qed.
Print Assumptions C12_gossip_never_goes_back_partial.

(** gossip from 2000, then from 5000 *)
Lemma sorted_two : @sorted E0 (after_all ast0 [add_a]) [in_a gossip_old; in_a gossip_new] (L "a").
Proof.
  intros h1 c1 h2 c2 h3 d1 d2 H [m1 [i1 [n1 [z1 [C1 [D1 ->]]]]]] [m2 [i2 [n2 [z2 [C2 [D2 ->]]]]]].
  destruct h1 as [|k1 h1]; cbn [app] in H; injection H as Hc H.
  - rewrite <- Hc in C1. destruct h2 as [|k h2]; cbn [app] in H; injection H as Hc2 H; [|destruct h2; discriminate].
    rewrite <- Hc2 in C2. unfold in_a in C1, C2. injection C1 as <- _ _. injection C2 as <- _ _.
    assert (z1 = 2000 * sec) as -> by (unfold dated in D1; vm_compute in D1; injection D1 as <-; vm_compute; reflexivity).
    assert (z2 = 5000 * sec) as -> by (unfold dated in D2; vm_compute in D2; injection D2 as <-; vm_compute; reflexivity).
    assert (Hz : forall z n, z <= 1000000 -> Z.min (z * sec) (@clock E0 n) = z * sec).
    { intros z n Hz. apply Z.min_l. change (z * sec <= (1000000 + Z.of_nat n) * sec). apply Z.mul_le_mono_nonneg_r; [discriminate|lia]. }
    rewrite !Hz by lia. apply Z.mul_le_mono_nonneg_r; [discriminate|lia].
  - destruct h1 as [|k2 h1]; cbn [app] in H; injection H as _ H; [destruct h2; discriminate|]. destruct h1; discriminate.
Qed.
Example C12_session_example : let s := after_all ast0 [add_a] in let h := [in_a gossip_old; in_a gossip_new] in
  sorted s h (L "a") /\ (forall c, In c h -> plain (L "a") c = true) /\
  option_map pv_latest_gossip (peer_of s (L "a") bob) = Some None /\
  map (fun n => match bob_of (add_a :: firstn n h) with Some v => option_map (fun g => (ge_date g, ge_keydata g)) (pv_latest_gossip v) | None => None end) (seq 0 3)
  = [None; Some (2000 * sec, keyA); Some (5000 * sec, keyB)].
Proof.
  cbv zeta. split; [exact sorted_two|]. split; [intros c [<-|[<-|[]]]; reflexivity|]. split; vm_compute; reflexivity.
Qed.
