(** C20-C23: recommendations.  Statements only; proofs are in RecProofs.v.  [advice] is the
    table of the Autocrypt rules on what is reported about a peer, [rank] orders the four
    answers from most to least cautious. *)
From Verif Require Import Base PyStr Env Prog Chain Gpg Mime States Account Fs Api Spec RecSpec RecProofs Toy Demo.
(** for the examples: a clock that starts 115 days after the epoch *)
Definition E1 : Env := toy (fun n => (10000000 + Z.of_nat n) * sec)%Z.
#[local] Existing Instance E1.

(** ** C20 *)
Theorem C20_one_recipient : forall (E : Env) s a c kh x v reply,
  reachable s -> own_of s a = Some (c, kh) -> peer_of s a (norm x) = Some v ->
  recommended s a [x] reply (advice (cf_pref c) reply v).
Proof. exact @c20. Qed.
Print Assumptions C20_one_recipient.

Definition prefers_mutual : api := AMod (L "a") None None None (Some mutual).
Definition days (n : Z) : text := dec_N (Z.to_N (n * 86400)).
Definition with_key (from pref : text) (n : Z) (id : text) : api := in_a (ac_mail from alice (days n) id pref keyB).
Definition without_key (from : text) (n : Z) (id : text) : api := in_a (mail from alice (days n) id []).
Definition advised (h : list api) (xs : list text) (reply : bool) : result outcome :=
  answer (after_all ast0 (add_a :: h)) (ARecommend (L "a") xs reply).
Definition says (w : text) : result outcome := Ok (OOptText (Some w)).
(** all rows of the table: no key; reply; gossip only; more than 35 days (not so at 35 days);
    mutual on both sides; not the last mail; only one side mutual *)
Example C20_example :
  let gossip := in_a (enc_mail carol (L "alice@a.org, bob@b.org") (L "1000") (L "<g>") [ac_value bob [] keyB] []) in
  map (fun h => advised h [bob] false)
    [[]; [gossip]; [with_key bob [] 1 (L "<1>"); without_key bob 37 (L "<2>")];
     [with_key bob [] 1 (L "<1>"); without_key bob 36 (L "<2>")];
     [prefers_mutual; with_key bob mutual 1 (L "<1>")];
     [prefers_mutual; with_key bob mutual 1 (L "<1>"); without_key bob 2 (L "<2>")];
     [with_key bob mutual 1 (L "<1>")]; [prefers_mutual; with_key bob [] 1 (L "<1>")]]
  = map says
    [L "disable"; L "discourage"; L "discourage"; L "available"; L "encrypt"; L "available"; L "available"; L "available"] /\
  map (fun h => advised h [bob] true)
    [[]; [gossip]; [with_key bob [] 1 (L "<1>"); without_key bob 37 (L "<2>")]] = [says (L "disable"); says (L "encrypt"); says (L "encrypt")].
Proof. split; vm_compute; reflexivity. Qed.

(** ** C21 *)
Theorem C21_most_cautious : forall (E : Env) s a xs reply, reachable s -> has_account s a -> xs <> [] ->
  exists r n, recommended s a xs reply r /\ rank r n /\
    (exists x, In x xs /\ recommended s a [x] reply r) /\
    forall x q m, In x xs -> recommended s a [x] reply q -> rank q m -> n <= m.
Proof. exact @c21_min. Qed.
Print Assumptions C21_most_cautious.

Theorem C21_more_recipients_more_caution : forall (E : Env) s a xs ys reply r q n m,
  reachable s -> has_account s a -> xs <> [] -> incl xs ys ->
  recommended s a xs reply r -> recommended s a ys reply q -> rank r n -> rank q m -> m <= n.
Proof. exact @c21_mono. Qed.
Print Assumptions C21_more_recipients_more_caution.

Theorem C21_order_and_repetition_do_not_matter : forall (E : Env) s a xs ys reply,
  reachable s -> has_account s a -> incl xs ys -> incl ys xs ->
  answer s (ARecommend a xs reply) = answer s (ARecommend a ys reply).
Proof. exact @c21_set. Qed.
Print Assumptions C21_order_and_repetition_do_not_matter.

Theorem C21_disable_iff_a_key_is_missing : forall (E : Env) s a xs reply, reachable s -> has_account s a -> xs <> [] ->
  recommended s a xs reply (L "disable") <->
  exists x v, In x xs /\ peer_of s a (norm x) = Some v /\ pv_keyhandle v = [].
Proof. exact @c21_disable. Qed.
Print Assumptions C21_disable_iff_a_key_is_missing.

(** With no recipients at all only the own preference counts.  Hence adding the first
    recipient can make the answer less cautious. *)
Theorem C21_no_recipients : forall (E : Env) s a c kh reply, reachable s -> own_of s a = Some (c, kh) ->
  recommended s a [] reply (if text_eqb (cf_pref c) mutual then L "encrypt" else L "available").
Proof. exact @c21_none. Qed.
Print Assumptions C21_no_recipients.

Theorem C21_first_recipient_refuted : exists (E : Env) s a x reply,
  reached s /\ recommended s a [] reply (L "available") /\ recommended s a [x] reply (L "encrypt").
Proof.
  exists E1, (after_all ast0 [add_a; with_key bob [] 1 (L "<1>")]), (L "a"), bob, true.
  split; [eexists; reflexivity|]. split; vm_compute; reflexivity.
Qed.
Print Assumptions C21_first_recipient_refuted.

Definition three : list api := [prefers_mutual; with_key bob mutual 1 (L "<1>"); with_key carol [] 1 (L "<2>")].
Example C21_example :
  map (fun xs => advised three xs false) [[bob]; [carol]; [bob; carol]; [carol; bob; carol]; [bob; L "dave@d.org"; carol]]
  = [says (L "encrypt"); says (L "available"); says (L "available"); says (L "available"); says (L "disable")].
Proof. vm_compute. reflexivity. Qed.

(** ** C22 *)
Theorem C22_always_an_answer : forall (E : Env) s a xs reply, reachable s -> has_account s a ->
  after s (ARecommend a xs reply) = s /\ exists r n, recommended s a xs reply r /\ rank r n.
Proof. exact @c22. Qed.
Print Assumptions C22_always_an_answer.

(** also for text that is no address *)
Example C22_example : has_account (after_all ast0 [add_a]) (L "a") /\
  advised [] [[]; L "x y:z"; L "peer:a:bob"] true = says (L "disable").
Proof. split; [vm_compute; discriminate|vm_compute; reflexivity]. Qed.

(** ** C23 *)
Theorem C23_automatic_only_if_everybody_wants_it : forall (E : Env) s a xs c kh,
  reachable s -> own_of s a = Some (c, kh) -> xs <> [] ->
  recommended s a xs false (L "encrypt") ->
  cf_pref c = mutual /\
  forall x v, In x xs -> peer_of s a (norm x) = Some v ->
    pv_keyhandle v <> [] /\ pv_direct v = true /\ pv_pref v = mutual /\ pv_last_seen v = pv_ac_timestamp v.
Proof. exact @c23. Qed.
Print Assumptions C23_automatic_only_if_everybody_wants_it.

Example C23_example :
  advised [prefers_mutual; with_key bob mutual 1 (L "<1>"); with_key carol mutual 1 (L "<2>")] [bob; carol] false = says (L "encrypt").
Proof. vm_compute. reflexivity. Qed.
