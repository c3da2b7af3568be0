(** Proofs about the commands (C61-C63). *)
From Verif Require Import Base PyStr Base64 Env Prog Chain Gpg Mime States Recommendation Account Cmdline Bot Fs Api Steps StepFacts Exec ApiScope
  Spec Obs PeerSpec PeerFacts RecSpec HeaderProofs OutSpec OutProofs OutProofs2 Quiet AcctSpec AcctFacts AcctProofs AcctProofs2 ImportProofs Commands CmdSpec.

Ltac errs := let H := fresh in intros ? H; injection H as ->; reflexivity.
Section CmdProofs.
Context {E : Env} {Sh : Shell}.

(** ** Status of an account *)
Definition rmap {A B} (f : A -> B) (r : result A) : result B := match r with Ok a => Ok (f a) | Err e => Err e end.
Definition peers_seen (s : ast) (a : text) (v : bool) : option (list text) := if v then Some (peer_names s a) else None.
Definition home_seen (s : ast) (a : text) : option text :=
  match snd (arun (get_bingpg a) s) with Ok g => gp_home g | Err _ => None end.
Lemma get_bingpg_state a s : fst (arun (get_bingpg a) s) = s.
Proof.
  unfold get_bingpg. rewrite arun_bind, arun_own_config. destruct (config_of s a) as [c|]; [|reflexivity].
  destruct (negb _); [reflexivity|]. destruct (text_eqb _ _); [destruct (mk_bingpg _ _); reflexivity|].
  destruct (text_eqb _ _); [destruct (mk_bingpg _ _); reflexivity|reflexivity].
Qed.
Lemma status_account_run a v s : arun (cmd_status_account a v) s =
  (fst (arun (cli_status_account a v) s),
   rmap (fun st => account_lines (home_seen s a) st (peers_seen (fst (arun (cli_status_account a v) s)) a v)) (snd (arun (cli_status_account a v) s))).
Proof.
  unfold cmd_status_account. rewrite arun_bind. unfold home_seen. pose proof (get_bingpg_state a s) as Hs.
  destruct (arun (get_bingpg a) s) as [s1 [g|e]] eqn:Eg; cbn [fst] in Hs; subst s1.
  - rewrite arun_bind. destruct (arun (cli_status_account a v) s) as [s1 [st|e]]; [|reflexivity].
    cbn [fst snd rmap]. destruct v; [|reflexivity]. rewrite !arun_bind. unfold get_peername_list. rewrite arun_bind. reflexivity.
  - unfold cli_status_account. rewrite arun_bind, arun_own_config.
    destruct (config_of s a) as [c|] eqn:Ec; [rewrite arun_bind, Eg; reflexivity|].
    unfold get_bingpg in Eg. rewrite arun_bind, arun_own_config, Ec in Eg. injection Eg as <-. reflexivity.
Qed.
Lemma mapM_rel {A B C} (f : A -> prog cop B) (g : A -> prog cop C) l :
  (forall x s, In x l -> fst (arun (f x) s) = fst (arun (g x) s) /\ forall e, snd (arun (g x) s) = Err e <-> snd (arun (f x) s) = Err e) ->
  forall s, fst (arun (mapM f l) s) = fst (arun (mapM g l) s) /\ forall e, snd (arun (mapM g l) s) = Err e <-> snd (arun (mapM f l) s) = Err e.
Proof.
  induction l as [|x l IH]; intros H s; [split; [reflexivity|split; discriminate]|].
  cbn [mapM]. rewrite !arun_bind. destruct (H x s (or_introl eq_refl)) as [H1 H2].
  destruct (arun (f x) s) as [s1 [b|e1]], (arun (g x) s) as [s2 [b2|e2]]; cbn [fst snd] in *; subst s2.
  - rewrite !arun_bind. destruct (IH (fun y s0 Hy => H y s0 (or_intror Hy)) s1) as [I1 I2].
    destruct (arun (mapM f l) s1) as [s2 [bs|e1]], (arun (mapM g l) s1) as [s3 [cs|e2]]; cbn [fst snd] in *; subst s3.
    + split; [reflexivity|split; discriminate].
    + specialize (proj1 (I2 e2) eq_refl). discriminate.
    + specialize (proj2 (I2 e1) eq_refl). discriminate.
    + pose proof (proj1 (I2 e2) eq_refl) as [= ->]. split; [reflexivity|]. split; intros [= ->]; reflexivity.
  - specialize (proj1 (H2 e2) eq_refl). discriminate.
  - specialize (proj2 (H2 e1) eq_refl). discriminate.
  - pose proof (proj1 (H2 e2) eq_refl) as [= ->]. split; [reflexivity|]. split; intros [= ->]; reflexivity.
Qed.
Definition matched {A B} (p : prog cop A) (q : prog cop B) : Prop :=
  forall s, fst (arun p s) = fst (arun q s) /\ forall e, snd (arun q s) = Err e -> snd (arun p s) = Err e.
Lemma status_all_matched v : matched (cmd_status_all v) (cli_status v).
Proof.
  intros s. unfold cmd_status_all, cli_status. rewrite !arun_bind, arun_names. destruct (accounts_of s) as [|n ns]; [split; [reflexivity|discriminate]|].
  rewrite arun_bind.
  destruct (mapM_rel (fun n => a <- get_account n true ;; l <- cmd_status_account a v ;; Ret (l ++ [[]]))
              (fun n => a <- get_account n true ;; cli_status_account a v) (n :: ns)) with (s := s) as [H1 H2].
  { intros x s0 _. rewrite !arun_bind. destruct (arun (get_account x true) s0) as [s1 [a|e]]; [|split; [reflexivity|]; split; intros [= ->]; reflexivity].
    rewrite arun_bind, status_account_run. destruct (arun (cli_status_account a v) s1) as [s2 [st|e]]; cbn [fst snd rmap].
    - split; [reflexivity|split; discriminate].
    - split; [reflexivity|]. split; intros [= ->]; reflexivity. }
  destruct (arun (mapM (fun n => a <- get_account n true ;; l <- cmd_status_account a v ;; Ret (l ++ [[]])) (n :: ns)) s) as [s1 [r|e1]],
    (arun (mapM (fun n => a <- get_account n true ;; cli_status_account a v) (n :: ns)) s) as [s2 [r2|e2]]; cbn [fst snd] in *; subst s2.
  - split; [reflexivity|discriminate].
  - specialize (proj1 (H2 e2) eq_refl). discriminate.
  - specialize (proj2 (H2 e1) eq_refl). discriminate.
  - pose proof (proj1 (H2 e2) eq_refl) as [= ->]. split; [reflexivity|errs].
Qed.

(** ** C61: commands and calls *)
Lemma arun_out p s : arun (out p) s = (fst (arun p s), rmap (fun l => Printed l 0 None) (snd (arun p s))).
Proof. unfold out. rewrite arun_bind. destruct (arun p s) as [s1 [l|e]]; reflexivity. Qed.
Lemma arun_lift {A} (r : result A) s : arun (lift r) s = (s, r).
Proof. destruct r; reflexivity. Qed.
Lemma arun_bind_lift {A B} (r : result A) (f : A -> prog cop B) s :
  arun (bind (lift r) f) s = match r with Ok a => arun (f a) s | Err e => (s, Err e) end.
Proof. rewrite arun_bind, arun_lift. destruct r; reflexivity. Qed.
Lemma arun_ret {A} (x : A) s : arun (Ret x) s = (s, Ok x). Proof. reflexivity. Qed.

Lemma with_account_bind {A} n (f : text -> prog cop A) s : arun (with_account n f) s =
  match arun (get_account n true) s with (s1, Ok a) => arun (f a) s1 | (s1, Err e) => (s1, Err e) end.
Proof. unfold with_account. rewrite arun_bind. reflexivity. Qed.

Lemma c61_calls s c x : counterpart c = Some x ->
  left_by s c = after s x /\ (forall e, answer s x = Err e -> outcome_of s c = Err e).
Proof.
  unfold left_by, after, outcome_of, answer. destruct c; cbn [counterpart]; intros H.
  - injection H as <-. cbn [command_prog exec]. unfold cli_destroy_all. destruct yes; [|split; [reflexivity|discriminate]].
    rewrite !arun_bind. destruct (arun mgr_version s) as [s1 [[v|]|e]]; [|split; [reflexivity|discriminate]|split; [reflexivity|errs]].
    rewrite !arun_bind. destruct (arun remove_all s1) as [s2 [[]|e]]; (split; cbn [fst snd rmap]; [reflexivity|first [discriminate|errs]]).
  - injection H as <-. cbn [command_prog exec]. rewrite arun_out, !arun_bind. unfold cli_add_account. rewrite !arun_bind.
    destruct (arun (add_account _ _ _ _ _) s) as [s1 [a|e]]; [|split; cbn [fst snd rmap]; [reflexivity|errs]].
    rewrite arun_bind, status_account_run. destruct (arun (cli_status_account a false) s1) as [s2 [st|e]]; (split; cbn [fst snd rmap]; [reflexivity|first [discriminate|errs]]).
  - injection H as <-. cbn [command_prog exec]. rewrite arun_out, !arun_bind. unfold cli_mod_account. rewrite !arun_bind.
    destruct (arun (mod_account _ _ _ _ _) s) as [s1 [[ch a]|e]]; [|split; cbn [fst snd rmap]; [reflexivity|errs]].
    rewrite !arun_bind, status_account_run. destruct (arun (cli_status_account a false) s1) as [s2 [st|e]]; (split; cbn [fst snd rmap]; [reflexivity|first [discriminate|errs]]).
  - injection H as <-. cbn [command_prog exec]. rewrite arun_out, !arun_bind. unfold cli_del_account. rewrite !arun_bind.
    destruct (arun (del_account name) s) as [s1 [[]|e]]; [|split; cbn [fst snd rmap]; [reflexivity|errs]].
    rewrite !arun_bind. destruct (status_all_matched true s1) as [H1 H2].
    destruct (arun (cmd_status_all true) s1) as [s2 [l|e]], (arun (cli_status true) s1) as [s3 [st|e']]; cbn [fst snd rmap] in *; subst s3; (split; [reflexivity|]);
      intros e0 [= ->]; specialize (H2 _ eq_refl); congruence.
  - injection H as <-. cbn [command_prog exec]. rewrite arun_out, !arun_bind.
    destruct (arun (get_account_from_emailadr emailadr true) s) as [s1 [[a|]|e]]; (split; cbn [fst snd rmap]; [reflexivity|first [discriminate|errs]]).
  - discriminate.
  - injection H as <-. cbn [command_prog exec]. rewrite arun_out, !arun_bind, with_account_bind. unfold cli_recommend. rewrite arun_bind.
    destruct (arun (get_account name true) s) as [s1 [a|e]]; [|split; cbn [fst snd rmap]; [reflexivity|errs]]. rewrite arun_bind.
    destruct (arun (recommend _ _ _ _) s1) as [s2 [r|e]]; (split; cbn [fst snd rmap]; [reflexivity|first [discriminate|errs]]).
  - injection H as <-. cbn [command_prog exec]. rewrite arun_out, !arun_bind.
    destruct (arun (cli_peerstate name emailadr) s) as [s1 [p|e]]; (split; cbn [fst snd rmap]; [reflexivity|first [discriminate|errs]]).
  - injection H as <-. cbn [command_prog exec]. rewrite arun_out, !arun_bind. unfold cmd_process_incoming, cli_process_incoming. rewrite !arun_bind.
    destruct (arun (match name with None => get_matching_account stdin | Some n => get_account n true end) s) as [s1 [a|e]]; [|split; cbn [fst snd rmap]; [reflexivity|errs]].
    rewrite !arun_bind. destruct (arun (process_incoming _ _ _ _) s1) as [s2 [[i|]|e]]; [|split; [reflexivity|discriminate]|split; [reflexivity|errs]].
    rewrite !arun_bind. unfold perform, arun; cbn [run astep fst snd]. split; [reflexivity|discriminate].
  - injection H as <-. cbn [command_prog exec]. rewrite arun_out, !arun_bind.
    destruct (arun (cli_process_outgoing stdin) s) as [s1 [m'|e]]; [|split; cbn [fst snd rmap]; [reflexivity|errs]]. rewrite arun_bind_lift. destruct (as_string m'); (split; cbn [fst snd rmap]; [reflexivity|first [discriminate|errs]]).
  - destruct args as [|arg args]; [discriminate|]. injection H as <-. cbn [command_prog exec]. unfold cmd_sendmail. cbn [nonempty assert_]. rewrite !arun_bind, arun_ret, arun_bind.
    destruct (arun (cli_process_outgoing stdin) s) as [s1 [m'|e]]; [|split; cbn [fst snd rmap]; [reflexivity|errs]]. rewrite arun_bind_lift. destruct (as_string m') as [t|e]; [|split; [reflexivity|discriminate]].
    rewrite arun_bind_lift. unfold encode_utf8; destruct (to_utf8 t) as [i|]; [|split; [reflexivity|discriminate]].
    rewrite arun_bind_lift. destruct (popen _ i) as [r|e]; [|split; [reflexivity|discriminate]].
    destruct (Z.eqb r 0); (split; cbn [fst snd rmap]; [reflexivity|first [discriminate|errs]]).
  - destruct (is_ascii stdin) eqn:Ea; [|discriminate]. injection H as <-. cbn [command_prog exec]. unfold cmd_import. rewrite arun_out, !arun_bind, with_account_bind.
    destruct (arun (get_account name true) s) as [s1 [a|e]]; [|split; cbn [fst snd rmap]; [reflexivity|errs]]. rewrite Ea, !arun_bind.
    destruct (arun (import_keydata_as_autocrypt _ _ _ _) s1) as [s2 [r|e]]; (split; cbn [fst snd rmap]; [reflexivity|first [discriminate|errs]]).
  - injection H as <-. cbn [command_prog exec]. rewrite arun_out, !arun_bind, with_account_bind.
    destruct (arun (get_account name true) s) as [s1 [a|e]]; [|split; cbn [fst snd rmap]; [reflexivity|errs]]. rewrite !arun_bind.
    destruct (arun (export_public_key _ _) s1) as [s2 [r|e]]; (split; cbn [fst snd rmap]; [reflexivity|first [discriminate|errs]]).
  - injection H as <-. cbn [command_prog exec]. rewrite arun_out, !arun_bind, with_account_bind.
    destruct (arun (get_account name true) s) as [s1 [a|e]]; [|split; cbn [fst snd rmap]; [reflexivity|errs]]. rewrite !arun_bind.
    destruct (arun (export_secret_key _) s1) as [s2 [r|e]]; (split; cbn [fst snd rmap]; [reflexivity|first [discriminate|errs]]).
  - destruct name; [discriminate|]. injection H as <-. cbn [command_prog exec]. rewrite arun_out, !arun_bind.
    destruct (status_all_matched verbose s) as [H1 H2].
    destruct (arun (cmd_status_all verbose) s) as [s2 [l|e]], (arun (cli_status verbose) s) as [s3 [st|e']]; cbn [fst snd rmap] in *; subst s3; (split; [reflexivity|]);
      intros e0 [= ->]; specialize (H2 _ eq_refl); congruence.
Qed.
Lemma c61_reachable s c x : reachable s -> counterpart c = Some x -> reachable (left_by s c).
Proof. intros Hr H. rewrite (proj1 (c61_calls s c x H)). apply reachable_step, Hr. Qed.

End CmdProofs.
