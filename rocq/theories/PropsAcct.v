(** C39-C49: accounts.  Statements only; proofs are in AcctProofs*.v, Rings.v and
    ImportProofs.v, the vocabulary is in AcctSpec.v. *)
From Verif Require Import Base PyStr Env Prog Chain Gpg Mime States Account Cmdline Fs Api Spec Obs PeerSpec OutSpec AcctSpec
  AcctProofs AcctProofs2 Rings ImportProofs Toy Demo.
#[local] Existing Instance E0.   (* for the examples *)

(** The examples: the accounts of [demo], "a" for every address and "b" for bob; bob's key is known to "a". *)
Definition state2 : ast := after_all ast0 demo.
Lemma state2_reached : reached state2. Proof. exists demo. reflexivity. Qed.
Lemma state2_reachable : reachable state2. Proof. exact (reached_reachable _ state2_reached). Qed.
Definition cfg_a : cfg_entry := CfgEntry (L "nopreference") (L "a") (L ".*") (L "own") (L "gpg").
Definition cfg_b : cfg_entry := CfgEntry (L "nopreference") (L "b") (L "bob") (L "own") (L "gpg").
(** adding an account with a key that gpg does not have *)
Definition add_bad : api := AAdd (L "aa") None (Some (L "nokey")) (L "gpg") (L "own").

(** ** C39 *)
Theorem C39_own_key_stays : forall (E : Env) s h a cfg kh, reachable s -> own_of s a = Some (cfg, kh) ->
  (forall c, In c h -> deletes a c = false) ->
  exists cfg', own_of (after_all s h) a = Some (cfg', kh) /\ cf_mode cfg' = cf_mode cfg /\ cf_name cfg' = cf_name cfg.
Proof. exact @c39_history. Qed.
Print Assumptions C39_own_key_stays.

Theorem C39_add_again : forall (E : Env) s c n mode, reachable s -> has_account s n -> creates c = Some (n, mode) ->
  answer s c = Err AccountExists /\ after s c = s.
Proof. exact @c39_add_again. Qed.
Print Assumptions C39_add_again.

Example C39_example : own_of state2 (L "a") = Some (cfg_a, toy_id 0) /\
  let h := [add_a; AMod (L "a") None (Some (L "X")) None (Some (L "mutual")); ADel (L "b");
            ACliAdd (L "a") true (Some (L "X")) (L "gpg") None; AImport (L "a") None keyC (L "mutual")] in
  forallb (fun c => negb (deletes (L "a") c)) h = true /\
  own_of (after_all state2 h) (L "a") = Some (CfgEntry (L "mutual") (L "a") (L ".*") (L "own") (L "gpg"), toy_id 0).
Proof. vm_compute. auto. Qed.

(** ** C40 *)
Theorem C40_deleted_and_nothing_else : forall (E : Env) s a c, reachable s -> has_account s a -> c = ADel a \/ c = ACliDel a ->
  accounts_of (after s c) = filter (fun b => negb (text_eqb b a)) (accounts_of s) /\
  own_of (after s c) a = None /\ (forall b, b <> a -> same_account s (after s c) b) /\
  (c = ADel a -> answer s c = Ok ONone /\ a_rings (after s c) = a_rings s).
Proof. exact @c40_gone. Qed.
Print Assumptions C40_deleted_and_nothing_else.

(** creating it again: default settings, no peers, nothing known about any address *)
Theorem C40_created_again_partial : forall (E : Env) s a d c mode x, reachable s -> has_account s a -> d = ADel a \/ d = ACliDel a ->
  creates c = Some (a, mode) -> answer (after s d) c = Ok x ->
  let s' := after (after s d) c in
  (exists cfg kh, first_settings c = Some cfg /\ own_of s' a = Some (cfg, kh)) /\
  peers_of s' a = Some [] /\ forall y, peer_of s' a y = Some (unknown_peer y).
Proof. exact @c40_fresh. Qed.
Print Assumptions C40_created_again_partial.

(** The full statement would add [verif_of s' a y = Some None]; this is false: verifications
    are not deleted, so the new account, with its new key, takes over those of the old one. *)
Theorem C40_verifications_survive_refuted : exists (E : Env) s a c x y e, reached s /\ has_account s a /\
  creates c = Some (a, L "own") /\ answer (after s (ADel a)) c = Ok x /\
  verif_of (after (after s (ADel a)) c) a y = Some (Some e).
Proof.
  exists E0, (after state2 (AVerifyPeer (L "a") bob (L "oob"))), (L "a"), add_a, (OText (L "a")), bob.
  eexists. split; [apply reached_after, state2_reached|]. split; [vm_compute; discriminate|].
  split; [reflexivity|]. split; vm_compute; reflexivity.
Qed.
Print Assumptions C40_verifications_survive_refuted.

Example C40_example : let s := after state2 (AAdd (L "aa") None None (L "gpg") (L "own")) in
  accounts_of s = [L "a"; L "aa"; L "b"] /\ peers_of s (L "a") = Some [bob; carol] /\
  accounts_of (after s (ADel (L "a"))) = [L "aa"; L "b"] /\ own_of (after s (ADel (L "a"))) (L "a") = None /\
  answer (after s (ADel (L "a"))) add_a = Ok (OText (L "a")) /\
  peer_of (after (after s (ADel (L "a"))) add_a) (L "a") bob = Some (unknown_peer bob) /\
  peer_of s (L "a") bob <> Some (unknown_peer bob).
Proof. cbv zeta. do 6 (split; [vm_compute; reflexivity|]). vm_compute. discriminate. Qed.

(** ** C41 *)
(** Whatever happens when an account is added, the others are listed and can be used as before. *)
Theorem C41_others_usable : forall (E : Env) s c n mode b, reachable s -> creates c = Some (n, mode) -> b <> n ->
  same_account s (after s c) b /\ (In b (accounts_of (after s c)) <-> In b (accounts_of s)).
Proof. exact @c41_others. Qed.
Print Assumptions C41_others_usable.

(** a failed attempt does not make the account, so it can be repeated *)
Theorem C41_can_be_retried : forall (E : Env) s n regex kh bin mode e, reachable s -> ~ has_account s n ->
  answer s (AAdd n regex kh bin mode) = Err e -> ~ has_account (after s (AAdd n regex kh bin mode)) n.
Proof. exact @c41_retry. Qed.
Print Assumptions C41_can_be_retried.

(** arguments that are refused at once change nothing *)
Theorem C41_refused_at_once : forall (E : Env) s c n mode, reachable s -> creates c = Some (n, mode) ->
  isalnum n = false \/ has_account s n \/ (mode <> L "own" /\ mode <> L "system") ->
  (exists e, answer s c = Err e) /\ same_everything s (after s c).
Proof. exact @c41_nothing. Qed.
Print Assumptions C41_refused_at_once.

(** But finding an account by address does not work any more: the settings of the account
    that could not be created are there, and the account is not. *)
Theorem C41_found_by_address_refuted : exists (E : Env) s c e adr a, reached s /\
  answer s c = Err e /\ creates c <> None /\
  answer s (AFind adr true) = Ok (OOptText (Some a)) /\ answer (after s c) (AFind adr true) = Err AccountNotFound.
Proof.
  exists E0, (after_all ast0 [add_b]), add_bad, InvocationFailure, bob, (L "b").
  split; [exists [add_b]; reflexivity|]. split; [vm_compute; reflexivity|]. split; [discriminate|]. split; vm_compute; reflexivity.
Qed.
Print Assumptions C41_found_by_address_refuted.

Example C41_example : answer state2 add_bad = Err InvocationFailure /\
  accounts_of (after state2 add_bad) = [L "a"; L "aa"; L "b"] /\
  peer_of (after state2 add_bad) (L "a") bob = peer_of state2 (L "a") bob /\
  own_of (after state2 add_bad) (L "aa") = None /\
  answer (after state2 add_bad) (AAdd (L "aa") None None (L "gpg") (L "own")) = Ok (OText (L "aa")) /\
  (exists e, answer state2 (AAdd (L "../x") None None (L "gpg") (L "own")) = Err e).
Proof. do 5 (split; [vm_compute; reflexivity|]). eexists. vm_compute. reflexivity. Qed.

(** ** C42 *)
Theorem C42_mod_account : forall (E : Env) s a cfg kh regex key bin pref, reachable s -> own_of s a = Some (cfg, kh) ->
  let c := AMod a regex key bin pref in let cfg' := with_changes cfg regex bin pref in
  (preference pref ->
     (exists b, answer s c = Ok (OMod b a) /\ (b = true <-> cfg' <> cfg)) /\
     own_of (after s c) a = Some (cfg', kh) /\ only_settings s (after s c) a /\
     a_rings (after s c) = a_rings s /\ a_trace (after s c) = a_trace s) /\
  (~ preference pref -> answer s c = Err ValueError /\ after s c = s).
Proof. exact @c42. Qed.
Print Assumptions C42_mod_account.

(** the command; it always sets the gpg program, to "gpg" by default *)
Theorem C42_mod_command_partial : forall (E : Env) s a cfg kh regex key bin pref, reachable s -> own_of s a = Some (cfg, kh) ->
  let c := ACliMod a key bin regex pref in
  let cfg' := with_changes cfg regex (Some (match bin with Some b => b | None => L "gpg" end)) pref in
  (preference pref -> own_of (after s c) a = Some (cfg', kh) /\ only_settings s (after s c) a) /\
  (~ preference pref -> answer s c = Err ValueError /\ after s c = s).
Proof. exact @c42_cli. Qed.
Print Assumptions C42_mod_command_partial.

(** no other call changes settings *)
Theorem C42_nothing_else_modifies : forall (E : Env) s c a cfg kh, reachable s -> own_of s a = Some (cfg, kh) ->
  deletes a c = false -> modifies a c = false -> own_of (after s c) a = Some (cfg, kh).
Proof. exact @c42_only. Qed.
Print Assumptions C42_nothing_else_modifies.

(** the key argument is ignored: the account has key [kh], gpg has the secret key [kh'], the call
    succeeds, and the key is what it was *)
Theorem C42_key_ignored_refuted : exists (E : Env) s a cfg kh kh' g x, reached s /\ own_of s a = Some (cfg, kh) /\ kh' <> kh /\
  snd (arun (get_bingpg a) s) = Ok g /\ snd (arun (get_secret_keyhandle g kh') s) = Ok (Some kh') /\
  answer s (AMod a None (Some kh') None None) = Ok x /\ own_of (after s (AMod a None (Some kh') None None)) a = Some (cfg, kh).
Proof.
  set (h := [AAdd (L "a") None None (L "gpg") (L "system"); AAdd (L "b") None None (L "gpg") (L "system")]).
  exists E0, (after_all ast0 h), (L "a"). do 2 eexists. exists (toy_id 1). do 2 eexists.
  split; [exists h; reflexivity|]. split; [vm_compute; reflexivity|]. split; [vm_compute; discriminate|].
  split; [vm_compute; reflexivity|]. split; [vm_compute; reflexivity|]. split; vm_compute; reflexivity.
Qed.
Print Assumptions C42_key_ignored_refuted.

(** the command changes the gpg program although this was not asked *)
Theorem C42_command_resets_program_refuted : exists (E : Env) s a cfg kh c cfg', reached s /\ own_of s a = Some (cfg, kh) /\
  c = ACliMod a None None None (Some (L "mutual")) /\ own_of (after s c) a = Some (cfg', kh) /\ cf_bin cfg' <> cf_bin cfg.
Proof.
  set (h := [add_a; AMod (L "a") None None (Some (L "gpg2")) None]).
  exists E0, (after_all ast0 h), (L "a"). do 4 eexists. split; [exists h; reflexivity|]. split; [vm_compute; reflexivity|].
  split; [reflexivity|]. split; [vm_compute; reflexivity|]. vm_compute. discriminate.
Qed.
Print Assumptions C42_command_resets_program_refuted.

Example C42_example : let c := AMod (L "a") (Some (L "al")) None None (Some (L "mutual")) in
  answer state2 c = Ok (OMod true (L "a")) /\
  own_of (after state2 c) (L "a") = Some (CfgEntry (L "mutual") (L "a") (L "al") (L "own") (L "gpg"), toy_id 0) /\
  answer (after state2 c) c = Ok (OMod false (L "a")) /\ own_of (after state2 c) (L "b") = Some (cfg_b, toy_id 0) /\
  ~ preference (Some (L "yes")) /\ answer state2 (AMod (L "a") (Some (L "al")) None None (Some (L "yes"))) = Err ValueError.
Proof. cbv zeta. do 4 (split; [vm_compute; reflexivity|]). split; [intros [H|H]; discriminate H|vm_compute; reflexivity]. Qed.

(** ** C43 *)
Theorem C43_first_match : forall (E : Env) s adr r a, reachable s ->
  answer s (AFind adr r) = Ok (OOptText (Some a)) <-> first_of s adr a.
Proof. exact @c43_found. Qed.
Print Assumptions C43_first_match.

Theorem C43_no_match : forall (E : Env) s adr, reachable s ->
  answer s (AFind adr false) = Ok (OOptText None) <-> none_of s adr.
Proof. exact @c43_none. Qed.
Print Assumptions C43_no_match.

Theorem C43_no_match_raises : forall (E : Env) s adr, reachable s -> none_of s adr -> answer s (AFind adr true) = Err AccountNotFound.
Proof. exact @c43_raises. Qed.
Print Assumptions C43_no_match_raises.

(** the account of an incoming mail: the To and Cc addresses in order, then Delivered-To *)
Theorem C43_route : forall (E : Env) s m l1 adr l2 a, reachable s -> complete s -> targets m = l1 ++ adr :: l2 ->
  (forall x, In x l1 -> none_of s (lower x)) -> first_of s (lower adr) a ->
  answer s (ARoute m) = Ok (OText a) /\ after s (ARoute m) = s.
Proof. exact @c43_route. Qed.
Print Assumptions C43_route.

Theorem C43_route_delivered : forall (E : Env) s m, reachable s -> complete s -> (forall x, In x (targets m) -> none_of s (lower x)) ->
  after s (ARoute m) = s /\
  (delivered m = [] -> answer s (ARoute m) = Err ValueError) /\
  (delivered m <> [] -> forall a, first_of s (delivered m) a -> answer s (ARoute m) = Ok (OText a)) /\
  (delivered m <> [] -> none_of s (delivered m) -> answer s (ARoute m) = Err AccountNotFound).
Proof. exact @c43_delivered. Qed.
Print Assumptions C43_route_delivered.

Definition by_name : list api :=
  [AAdd (L "z") (Some (L "bob")) None (L "gpg") (L "own"); AAdd (L "c") (Some (L "carol")) None (L "gpg") (L "own");
   AAdd (L "b") (Some (L "bo")) None (L "gpg") (L "own")].
Definition state3 : ast := after_all ast0 by_name.
Lemma state3_reached : reached state3. Proof. exists by_name. reflexivity. Qed.
Lemma state3_reachable : reachable state3. Proof. exact (reached_reachable _ state3_reached). Qed.
Example C43_example : accounts_of state3 = [L "b"; L "c"; L "z"] /\ complete state3 /\
  first_of state3 bob (L "b") /\ none_of state3 alice /\
  answer state3 (AFind bob true) = Ok (OOptText (Some (L "b"))) /\
  answer state3 (AFind alice true) = Err AccountNotFound /\
  answer state3 (ARoute (mail bob (L "alice@a.org, Carol@c.org, bob@b.org") (L "1") (L "<1>") [(L "Delivered-To", bob)])) = Ok (OText (L "c")) /\
  answer state3 (ARoute (mail bob alice (L "1") (L "<1>") [(L "Delivered-To", bob)])) = Ok (OText (L "b")) /\
  answer state3 (ARoute (mail bob alice (L "1") (L "<1>") [])) = Err ValueError.
Proof.
  assert (Hacc : accounts_of state3 = [L "b"; L "c"; L "z"]) by (vm_compute; reflexivity).
  split; [exact Hacc|]. split.
  { intros a Ha. rewrite Hacc in Ha. destruct Ha as [<-|[<-|[<-|[]]]]; vm_compute; discriminate. }
  split; [apply (proj1 (C43_first_match E0 state3 bob true (L "b") state3_reachable)); vm_compute; reflexivity|].
  split; [apply (proj1 (C43_no_match E0 state3 alice state3_reachable)); vm_compute; reflexivity|].
  do 4 (split; [vm_compute; reflexivity|]). vm_compute. reflexivity.
Qed.

(** ** C44 *)
(** a call that names an account with its own key ring, or creates one: gpg is only run with
    that key ring, and no other key ring changes (deleting by command shows all other accounts) *)
Theorem C44_own_ring_only : forall (E : Env) s c n, reachable s -> names c = Some n -> (forall m, c <> ACliDel m) ->
  (exists cfg kh, own_of s n = Some (cfg, kh) /\ cf_mode cfg = L "own") \/ creates c = Some (n, L "own") ->
  confined (fun h => h = own_gpghome n) s (after s c).
Proof. exact @c44_own. Qed.
Print Assumptions C44_own_ring_only.

(** any call: only the key rings of accounts that exist or are created *)
Theorem C44_rings_of_accounts : forall (E : Env) s c, reachable s -> complete s -> deletes_all c = false ->
  confined (fun h => exists a mode, isalnum a = true /\ h = ring_of_mode a mode /\
     ((exists cfg kh, own_of s a = Some (cfg, kh) /\ cf_mode cfg = mode) \/ creates c = Some (a, mode))) s (after s c).
Proof. exact @c44_any. Qed.
Print Assumptions C44_rings_of_accounts.

(** with accounts of this kind only, the system's key ring is never used *)
Theorem C44_system_ring_unused : forall (E : Env) h, Forall only_own h ->
  Forall (fun g => an_own_home (gc_home g)) (a_trace (after_all ast0 h)) /\ ring_content (after_all ast0 h) [] = ring_content ast0 [].
Proof. exact @c44_history. Qed.
Print Assumptions C44_system_ring_unused.

Example C44_example : Forall only_own demo /\
  let c := AImport (L "a") None keyA (L "mutual") in
  own_of state2 (L "a") = Some (cfg_a, toy_id 0) /\
  ring_content (after state2 c) (own_gpghome (L "a")) <> ring_content state2 (own_gpghome (L "a")) /\
  ring_content (after state2 c) (own_gpghome (L "b")) = ring_content state2 (own_gpghome (L "b")) /\
  (length (a_trace state2) < length (a_trace (after state2 c)))%nat /\ own_gpghome (L "a") = L "/dir/gpg/a".
Proof.
  split. { unfold demo. repeat constructor; intros n mode H; simpl in H; congruence. }
  cbv zeta. split; [vm_compute; reflexivity|]. split; [vm_compute; discriminate|]. split; [vm_compute; reflexivity|].
  split; [vm_compute; lia|reflexivity].
Qed.

(** ** C45 *)
Theorem C45_other_names_refused : forall (E : Env) s c n, reachable s -> names c = Some n -> isalnum n = false ->
  answer s c = Err AssertionError /\ same_everything s (after s c).
Proof. exact @c45_refused. Qed.
Print Assumptions C45_other_names_refused.

Theorem C45_home_is_child : forall (E : Env) s a, reachable s -> In a (accounts_of s) ->
  own_gpghome a = basedir ++ L "/gpg/" ++ a /\ a <> [] /\ ~ In 47%N a /\ ~ In 46%N a.
Proof. exact @c45_home. Qed.
Print Assumptions C45_home_is_child.

Theorem C45_homes_differ : forall (E : Env) a b, own_gpghome a = own_gpghome b -> a = b.
Proof. exact @c45_distinct. Qed.
Print Assumptions C45_homes_differ.

Example C45_example : map isalnum [L "../a"; L ""; L "a b"; L "."; L "a/b"; L "Ab9"] = [false; false; false; false; false; true] /\
  answer state2 (AAdd (L "../a") None None (L "gpg") (L "own")) = Err AssertionError /\
  answer state2 (APeers (L "a/b")) = Err AssertionError /\ In (L "a") (accounts_of state2).
Proof. do 3 (split; [vm_compute; reflexivity|]). vm_compute. auto. Qed.

(** ** C46 *)
Theorem C46_nothing_left : forall (E : Env) s c, reachable s -> destroys s c -> let s' := after s c in
  (exists x, answer s c = Ok x) /\ accounts_of s' = [] /\ version_log s' = [] /\
  (forall a, own_of s' a = None /\ peers_of s' a = None /\ forall x, peer_of s' a x = None /\ verif_of s' a x = None) /\
  ring_content s' [] = ring_content s [] /\ (forall h, h <> [] -> ring_content s' h = ring0) /\ a_trace s' = a_trace s.
Proof. exact @c46_nothing. Qed.
Print Assumptions C46_nothing_left.

(** every later session gets the answers it would get in an empty directory *)
Theorem C46_like_empty_directory : forall (E : Env) s c h, reachable s -> destroys s c ->
  snd (session h (after s c)) = snd (session h (empty_directory s)).
Proof. exact @c46_fresh. Qed.
Print Assumptions C46_like_empty_directory.

Theorem C46_not_confirmed : forall (E : Env) s, answer s (ACliDestroy false) = Ok (OBool false) /\ after s (ACliDestroy false) = s.
Proof. exact @c46_cancel. Qed.
Print Assumptions C46_not_confirmed.

Example C46_example : destroys state2 ARemove /\ destroys state2 (ACliDestroy true) /\
  accounts_of state2 = [L "a"; L "b"] /\ accounts_of (after state2 ARemove) = [] /\
  snd (session demo (after state2 (ACliDestroy true))) = snd (session demo (empty_directory state2)).
Proof. split; [left; reflexivity|]. split; [right; split; [reflexivity|vm_compute; discriminate]|]. do 2 (split; [vm_compute; reflexivity|]). vm_compute. reflexivity. Qed.

(** ** C47 *)
Theorem C47_unknown_account : forall (E : Env) s c n, reachable s -> names c = Some n -> creates c = None -> isalnum n = true ->
  ~ has_account s n -> answer s c = Err AccountNotFound /\ same_everything s (after s c).
Proof. exact @c47. Qed.
Print Assumptions C47_unknown_account.

Example C47_example : own_of state2 (L "x") = None /\
  map (answer state2) [APeers (L "x"); AIncoming (L "x") (ac_mail bob alice (L "1000") (L "<1>") (L "mutual") keyB) false false;
                       AImport (L "x") None keyB (L "mutual"); ADel (L "x"); AMod (L "x") None None None (Some (L "bad"))]
    = repeat (Err AccountNotFound) 5.
Proof. split; vm_compute; reflexivity. Qed.

(** ** C48 *)
Theorem C48_one_version : forall (E : Env) s, reachable s ->
  version_log s = [] \/ exists t, version_log s = [Block t (EACfg (ACfgEntry (L "0.1")))].
Proof. exact @c48_form. Qed.
Print Assumptions C48_one_version.

Theorem C48_never_changes : forall (E : Env) s h, reachable s -> version_log s <> [] -> (forall c, In c h -> deletes_all c = false) ->
  version_log (after_all s h) = version_log s.
Proof. exact @c48_history. Qed.
Print Assumptions C48_never_changes.

Theorem C48_set_on_first_use : forall (E : Env) s c n, reachable s -> names c = Some n -> version_log (after s c) <> [].
Proof. exact @c48_first. Qed.
Print Assumptions C48_set_on_first_use.

Theorem C48_present_with_accounts : forall (E : Env) s a, reachable s -> In a (accounts_of s) -> version_log s <> [].
Proof. exact @c48_present. Qed.
Print Assumptions C48_present_with_accounts.

Example C48_example : version_log ast0 = [] /\
  version_log (after ast0 (APeers (L "x"))) = [Block (clock 0) (EACfg (ACfgEntry (L "0.1")))] /\
  version_log state2 = [Block (clock 0) (EACfg (ACfgEntry (L "0.1")))].
Proof. split; [reflexivity|]. split; vm_compute; reflexivity. Qed.

(** ** C49 *)
(** [i] is the reading of the clock at which the key was recorded.  (gpg may export nothing for
    a key it has just imported; then no key is recorded.) *)
Theorem C49_imported_for : forall (E : Env) s n addr kd pref r, (forall i j, (i < j)%nat -> (clock i < clock j)%Z) -> (0 < clock 0%nat)%Z ->
  reachable s -> let c := AImport n addr kd pref in answer s c = Ok (OImport r) ->
  ir_pref r = pref /\ own_public_key s (after s c) (ir_kh r) (ir_keydata r) /\
  (match addr with
   | Some x => ir_addrs r = [norm x]
   | None => exists kh us, listed_users s (after s c) kh us /\ ir_addrs r = map norm us
   end) /\
  (forall u, In u (ir_addrs r) -> exists v key i, peer_of (after s c) n u = Some v /\ own_public_key s (after s c) (ir_kh r) key /\
     (a_tick s <= i < a_tick (after s c))%nat /\ (key <> [] -> direct_key v (clock i) pref key (ir_kh r))).
Proof. exact @c49_import. Qed.
Print Assumptions C49_imported_for.

Theorem C49_for_nobody_else : forall (E : Env) s n addr kd pref r, (forall i j, (i < j)%nat -> (clock i < clock j)%Z) -> (0 < clock 0%nat)%Z ->
  reachable s -> let c := AImport n addr kd pref in answer s c = Ok (OImport r) ->
  accounts_of (after s c) = accounts_of s /\ own_of (after s c) n = own_of s n /\ (forall b, b <> n -> same_account s (after s c) b) /\
  (forall x, ~ In (norm x) (map norm (ir_addrs r)) -> peer_of (after s c) n x = peer_of s n x) /\
  (forall x, verif_of (after s c) n x = verif_of s n x).
Proof. exact @c49_others. Qed.
Print Assumptions C49_for_nobody_else.

Example C49_example : (forall i j, (i < j)%nat -> (clock i < clock j)%Z) /\ (0 < clock 0%nat)%Z /\
  let named := AImport (L "a") (Some (L "Dave <dave@d.org>")) keyC (L "mutual") in
  let unnamed := AImport (L "a") None keyC (L "mutual") in
  (exists r, answer state2 named = Ok (OImport r) /\ ir_addrs r = [L "dave@d.org"] /\ ir_kh r = skipn 3 keyC) /\
  (exists r, answer state2 unnamed = Ok (OImport r) /\ ir_addrs r = [L "cccccccccccccccc@key"]) /\
  (exists v, peer_of (after state2 named) (L "a") (L "dave@d.org") = Some v /\ pv_keydata v = keyC) /\
  peers_of (after state2 unnamed) (L "a") = Some [bob; carol; L "cccccccccccccccc@key"].
Proof.
  split. { intros i j H. change ((1000000 + Z.of_nat i) * sec < (1000000 + Z.of_nat j) * sec)%Z. apply Z.mul_lt_mono_pos_r; [reflexivity|lia]. }
  split; [reflexivity|]. cbv zeta. split; [eexists; split; [vm_compute; reflexivity|split; reflexivity]|].
  split; [eexists; split; [vm_compute; reflexivity|reflexivity]|].
  split; [eexists; split; [vm_compute; reflexivity|reflexivity]|]. vm_compute. reflexivity.
Qed.
