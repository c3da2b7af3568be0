(** C93: recommendation objects that are kept.  Statements only; proofs are in RecObjProofs.v. *)
From Verif Require Import Base PyStr Base64 Env Prog Chain Gpg Mime States Recommendation Account Cmdline Bot Fs Api Spec Obs PeerSpec RecSpec OutSpec
  RecObj RecObjProofs Toy Demo PropsOut PropsPeer.
#[local] Existing Instance E0.   (* for the examples *)

(** An object made earlier gives the answer of a new one, if the account still has the same
    preference. *)
Theorem C93_as_a_new_one_partial : forall (E : Env) s s2 a c k c2 k2 xs reply from o, reachable s -> own_of s a = Some (c, k) ->
  arun (get_recommendation a xs reply from) s = (s, Ok o) -> reachable s2 -> own_of s2 a = Some (c2, k2) -> cf_pref c2 = cf_pref c ->
  arun (get_recommendation a xs reply from) s2 = (s2, Ok o) /\ arun (ro_ui o) s2 = arun (recommend a xs reply from) s2.
Proof. exact @c93_same. Qed.
Print Assumptions C93_as_a_new_one_partial.

(** In general it judges by what is known of the peers now, with the preference of then. *)
Theorem C93_kept_recommendation : forall (E : Env) s s2 a c k xs reply o, reachable s -> own_of s a = Some (c, k) ->
  arun (get_recommendation a (map Some xs) reply None) s = (s, Ok o) -> reachable s2 -> has_account s2 a ->
  exists r, arun (ro_ui o) s2 = (s2, Ok (Some r)) /\
    (xs = [] -> r = if text_eqb (cf_pref c) mutual then L "encrypt" else L "available") /\
    (xs <> [] -> exists x v n, In x xs /\ peer_of s2 a (norm x) = Some v /\ r = advice (cf_pref c) reply v /\ rank r n /\
       forall y w m, In y xs -> peer_of s2 a (norm y) = Some w -> rank (advice (cf_pref c) reply w) m -> (n <= m)%nat).
Proof. exact @c93_kept. Qed.
Print Assumptions C93_kept_recommendation.

Theorem C93_handles_are_current : forall (E : Env) s s2 a c k xs reply o, reachable s -> own_of s a = Some (c, k) ->
  arun (get_recommendation a (map Some xs) reply None) s = (s, Ok o) -> reachable s2 -> has_account s2 a ->
  exists l, arun (ro_handles o) s2 = (s2, Ok l) /\ NoDup (map fst l) /\
    forall y kh, In (y, kh) l <-> (exists x, In x xs /\ norm x = y) /\ exists v, peer_of s2 a y = Some v /\ pv_keyhandle v = kh.
Proof. exact @c93_handles. Qed.
Print Assumptions C93_handles_are_current.

Definition made : rec_obj := RecObj (rec_peers (L "a") (map Some [bob]) None) (L "mutual") false.
Definition asks_now (s : ast) : option text := match snd (arun (ro_ui made) s) with Ok r => r | Err _ => None end.
Example C93_example : reachable state1 /\
  arun (get_recommendation (L "a") (map Some [bob]) false None) state1 = (state1, Ok made) /\
  asks_now state1 = Some (L "encrypt") /\
  (let s2 := after state1 (in_a (mail bob alice (L "5000") (L "<later>") [])) in
   reachable s2 /\ has_account s2 (L "a") /\ asks_now s2 = Some (L "available")).
Proof.
  split; [apply state1_reachable|].
  split; [eapply made_in; [apply state1_reachable|vm_compute; reflexivity|vm_compute; reflexivity]|]. split; [vm_compute; reflexivity|]. cbv zeta.
  split; [apply reachable_after, state1_reachable|]. split; [vm_compute; discriminate|vm_compute; reflexivity].
Qed.

(** After a change of the preference it is not what a new object says. *)
Theorem C93_changed_preference_refuted : exists (E : Env) s c a xs o r r', reached s /\
  arun (get_recommendation a xs false None) s = (s, Ok o) /\
  snd (arun (ro_ui o) (after s c)) = Ok (Some r) /\ snd (arun (recommend a xs false None) (after s c)) = Ok (Some r') /\ r <> r'.
Proof.
  exists E0, state1, (AMod (L "a") None None None (Some (L "nopreference"))), (L "a"), (map Some [bob]), made, (L "encrypt"), (L "available").
  split; [apply state1_reached|].
  split; [eapply made_in; [apply state1_reachable|vm_compute; reflexivity|vm_compute; reflexivity]|].
  do 2 (split; [vm_compute; reflexivity|]). vm_compute. discriminate.
Qed.
Print Assumptions C93_changed_preference_refuted.
