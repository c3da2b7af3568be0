(** C67: accounts do not depend on each other.  Statements only; proofs are in Indep.v, the
    vocabulary is in IndepSpec.v. *)
From Verif Require Import Base PyStr Base64 Env Prog Chain Gpg Mime States Recommendation Account Fs Api Spec PeerSpec OutSpec AcctSpec IndepSpec Obs
  Indep Toy Demo PropsOut PropsAcct.
#[local] Existing Instance E0.   (* for the examples *)

(** ** C67 *)
Theorem C67_same_answers : forall (E : Env) s1 s2 a c, reachable s1 -> reachable s2 -> names c = Some a -> (forall m, c <> ACliDel m) ->
  alike true a s1 s2 -> answer s1 c = answer s2 c /\ alike true a (after s1 c) (after s2 c).
Proof. exact @c67_same. Qed.
Print Assumptions C67_same_answers.
(** an account with its own key ring does not depend on the one of the system *)
Theorem C67_same_answers_private : forall (E : Env) s1 s2 a c, reachable s1 -> reachable s2 -> private s1 a -> names c = Some a ->
  (forall m, c <> ACliDel m) -> only_own c ->
  alike false a s1 s2 -> answer s1 c = answer s2 c /\ alike false a (after s1 c) (after s2 c).
Proof. exact @c67_private. Qed.
Print Assumptions C67_same_answers_private.
Theorem C67_same_sessions : forall (E : Env) s1 s2 a h, reachable s1 -> reachable s2 ->
  Forall (fun c => names c = Some a /\ forall m, c <> ACliDel m) h -> alike true a s1 s2 ->
  snd (session h s1) = snd (session h s2) /\ alike true a (after_all s1 h) (after_all s2 h).
Proof. exact @c67_session. Qed.
Print Assumptions C67_same_sessions.
(** a call on one account makes no difference for a call on another, except that time passes *)
Theorem C67_calls_on_others : forall (E : Env) s a b c d, reachable s -> isalnum a = true -> has_account s b ->
  names c = Some b -> (forall m, c <> ACliDel m) -> a <> b -> names d = Some a -> (forall m, d <> ACliDel m) ->
  (exists cfg kh, own_of s b = Some (cfg, kh) /\ cf_mode cfg = L "own") \/ (private s a /\ only_own d) ->
  answer (after s c) d = answer (at_time s (a_tick (after s c)) (a_uuid (after s c))) d.
Proof. exact @c67_others. Qed.
Print Assumptions C67_calls_on_others.

Example C67_example :
  let s1 := after state2 (AVerifySelf (L "b") bob keyA) in let s2 := after state2 (AVerifyPeer (L "b") carol keyB) in
  let c := AImport (L "a") None keyA (L "mutual") in let d := AExportPub (L "a") (Some (skipn 3 keyA)) in
  reachable s1 /\ reachable s2 /\ alike true (L "a") s1 s2 /\ verif_of s1 (L "b") bob <> verif_of s2 (L "b") bob /\
  private state2 (L "a") /\ names c = Some (L "a") /\ (exists r, answer s1 c = Ok r) /\
  (exists x, answer (after state2 c) (AExportPub (L "a") (Some (skipn 3 keyA))) = Ok (OBytes x)) /\
  own_of state2 (L "b") <> None /\ names (AImport (L "b") None keyA (L "mutual")) = Some (L "b") /\
  answer (after state2 (AImport (L "b") None keyA (L "mutual"))) d = answer state2 d.
Proof.
  cbv zeta. assert (R1 : reachable (after state2 (AVerifySelf (L "b") bob keyA))) by apply reachable_after, state2_reachable.
  assert (R2 : reachable (after state2 (AVerifyPeer (L "b") carol keyB))) by apply reachable_after, state2_reachable.
  split; [exact R1|]. split; [exact R2|]. split.
  { split; [|split; [vm_compute; reflexivity|split; [vm_compute; reflexivity|split; [intros _; vm_compute; reflexivity|split; vm_compute; reflexivity]]]].
    intros n Hn.
    assert (H1 : L "a" <> L "b") by discriminate. assert (H0 : isalnum (L "a") = true) by (vm_compute; reflexivity).
    assert (H2 : forall m, AVerifySelf (L "b") bob keyA <> ACliDel m) by discriminate.
    assert (H3 : forall m, AVerifyPeer (L "b") carol keyB <> ACliDel m) by discriminate.
    exact (eq_trans (others_logs state2 (L "a") (L "b") (AVerifySelf (L "b") bob keyA) n state2_reachable H0 eq_refl H2 H1 Hn) (eq_sym (others_logs state2 (L "a") (L "b") (AVerifyPeer (L "b") carol keyB) n state2_reachable H0 eq_refl H3 H1 Hn))). }
  split; [vm_compute; discriminate|]. split; [right; exists cfg_a, (toy_id 0); split; vm_compute; reflexivity|]. split; [reflexivity|].
  split; [eexists; vm_compute; reflexivity|]. split; [eexists; vm_compute; reflexivity|]. split; [vm_compute; discriminate|]. split; [reflexivity|].
  vm_compute. reflexivity.
Qed.
