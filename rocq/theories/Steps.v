(** Every API call is a sequence of labelled atomic steps.  This file defines the labels,
    what each step does, the condition under which each may occur ([guard]), the invariant
    of stored state ([WF]), and a small logic to show that programs only make guarded steps. *)
From Verif Require Import Base PyStr Env Prog Chain Gpg Mime States Recommendation Account.

Inductive label :=
| LTick
| LUuid
| LGpg (acct : text) (argv : list text) (inp tmp : option bytes)
| LMsg (acct addr id : text) (date : Z) (pref : option text) (kd : option bytes) (kh : option text)
| LGossip (acct addr id : text) (date : Z) (kd : option bytes) (kh : option text)
| LCfg (acct : text) (c : cfg_entry)
| LKeygen (acct : text) (kd : bytes) (kh : text)
| LVerif (acct : text) (e : verif_entry)
| LVersion
| LRemove (acct : text)
| LRm.

Section Steps.
Context {E : Env}.

Definition step_prog (l : label) : prog cop unit :=
  match l with
  | LTick => perform CTime ;;; Ret tt
  | LUuid => perform CUuid ;;; Ret tt
  | LGpg _ argv inp tmp => perform (CGpg argv inp tmp) ;;; Ret tt
  | LMsg a addr id date pref kd kh => update_from_msg (peer_chain a addr) id date pref kd kh
  | LGossip a addr id date kd kh => update_from_msg_gossip (peer_chain a addr) id date kd kh
  | LCfg a c => perform (CAppend (own_chain a) (ECfg c))
  | LKeygen a kd kh => append_keygen a kd kh
  | LVerif a e => perform (CAppend (oob_chain a) (EVerif e))
  | LVersion => set_version (L "0.1")
  | LRemove a => remove_account a
  | LRm => perform CRmTree
  end.

Definition step (l : label) (s : ast) : ast := fst (arun (step_prog l) s).

(** ** Accessors *)
Definition config_of (s : ast) (a : text) : option cfg_entry := latest_config (alog s (own_chain a)).
Definition keygen_of (s : ast) (a : text) : option keygen_entry := latest_keygen (alog s (own_chain a)).
Definition version_of (s : ast) : option acfg_entry := hd_error (acfg_entries (alog s mgr_chain)).
Definition peer_log (s : ast) (a addr : text) : list block := alog s (peer_chain a addr).

(** The gpg home that belongs to a configuration. *)
Definition home_of (c : cfg_entry) (a : text) : option text :=
  if text_eqb (cf_mode c) (L "own") then Some (own_gpghome a) else None.

(** The BinGPG made for an account with this configuration. *)
Definition made_for (g : bingpg) (c : cfg_entry) (a : text) : Prop :=
  gp_home g = home_of c a /\ find_executable (cf_bin c) = Some (gp_path g).
(** Addresses of generated keys. *)
Definition random_address (k : nat) : text := uuid_hex k ++ L "@random.muacrypt.org".

(** The gpg command lines muacrypt makes (without path, --batch and home directory). *)
Inductive gpg_cmd (g : bingpg) : list text -> option bytes -> option bytes -> Prop :=
| gc_list_sec kh : gpg_cmd g [L "--skip-verify"; L "--with-colons"; L "--list-secret-keys"; kh] None None
| gc_list_pub kh : gpg_cmd g [L "--skip-verify"; L "--with-colons"; L "--list-public-keys"; kh] None None
| gc_genkey k spec : encode_utf8 (key_spec (random_address k)) = Ok spec -> gpg_cmd g (nopassphrase g ++ [L "--gen-key"; L "<tmpfile>"]) None (Some spec)
| gc_export_pub (armor : bool) kh :
    gpg_cmd g ((if armor then [L "-a"] else []) ++ [L "--export-options=export-minimal"; L "--export"; kh]) None None
| gc_export_sec (armor : bool) kh :
    gpg_cmd g ((if armor then [L "-a"] else []) ++ nopassphrase g ++
               [L "--export-options=export-minimal"; L "--export-secret-key"; kh]) None None
| gc_encrypt data rs sk : gpg_cmd g (encrypt_argv g rs sk) (Some data) None
| gc_decrypt data : gpg_cmd g (nopassphrase g ++ [L "--with-colons"; L "--decrypt"]) (Some data) None
| gc_import data : gpg_cmd g [L "--skip-verify"; L "--import"] (Some data) None
| gc_delete kh : gpg_cmd g [L "--yes"; L "--delete-key"; kh] None None.

Definition full_argv (g : bingpg) (rest : list text) : list text :=
  [gp_path g; L "--batch"] ++ homedirflags g ++ rest.

(** A result that a program may have. *)
Definition may {A} (p : prog cop A) (x : A) : Prop := exists s, snd (arun p s) = Ok x.
(** Where the key handle recorded for a peer comes from: the gpg of the account told it when
    the key was imported; for keys imported by hand, the recorded key is exported again. *)
Definition said (c : cfg_entry) (a : text) (kd : option bytes) (kh : option text) : Prop :=
  match kh with
  | None => True
  | Some h => exists g k, made_for g c a /\ kd = Some k /\
      (may (import_keydata g k false) h \/ exists k0, may (import_keydata g k0 true) h /\ may (get_public_keydata g h false) k)
  end.

Definition valid_cfg (c : cfg_entry) : bool := valid_pref (cf_pref c) && valid_mode (cf_mode c).

(** ** Condition under which a step may occur *)
Definition guard (s : ast) (l : label) : Prop :=
  match l with
  | LTick | LUuid | LVersion | LRm => True
  | LGpg a argv inp tmp =>
      isalnum a = true /\
      exists g c rest, config_of s a = Some c /\ made_for g c a /\
                       argv = full_argv g rest /\ gpg_cmd g rest inp tmp
  | LMsg a _ _ date _ kd kh | LGossip a _ _ date kd kh =>
      isalnum a = true /\ (exists c, config_of s a = Some c /\ said c a kd kh) /\ exists i, i < a_tick s /\ (date <= clock i)%Z
  | LCfg a c =>
      version_of s <> None /\ isalnum a = true /\ valid_cfg c = true /\ cf_name c = a /\
      (keygen_of s a = None \/ exists c0, config_of s a = Some c0 /\ cf_mode c0 = cf_mode c)
  | LKeygen a _ _ => isalnum a = true /\ keygen_of s a = None /\ config_of s a <> None
  | LVerif a _ => isalnum a = true /\ config_of s a <> None
  | LRemove a => isalnum a = true
  end.

Inductive path : ast -> list label -> ast -> Prop :=
| path_nil s : path s [] s
| path_cons s l ls s' : guard s l -> path (step l s) ls s' -> path s (l :: ls) s'.

Lemma path_app s ls1 s1 ls2 s2 : path s ls1 s1 -> path s1 ls2 s2 -> path s (ls1 ++ ls2) s2.
Proof. induction 1; simpl; auto. intros. constructor; auto. Qed.

Lemma path_split s ls1 ls2 s2 : path s (ls1 ++ ls2) s2 -> exists s1, path s ls1 s1 /\ path s1 ls2 s2.
Proof.
  revert s; induction ls1 as [|l ls1 IH]; simpl; intros s H.
  - exists s. split; [constructor | exact H].
  - inversion H; subst. destruct (IH _ H5) as [s1 [H1 H2]]. exists s1. split; [constructor; auto | exact H2].
Qed.

(** If every guarded step preserves [I], so does a path. *)
Lemma path_inv (I : ast -> Prop) s ls s' :
  (forall s l, guard s l -> In l ls -> I s -> I (step l s)) -> path s ls s' -> I s -> I s'.
Proof.
  intros H Hp. induction Hp as [s|s l ls s' Hg Hp IH]; auto.
  intros Hs. apply IH; [|apply H; simpl; auto].
  intros s0 l0 Hg0 Hi. apply H; simpl; auto.
Qed.

(** ** Well-formed stored state *)

(** A peer log grows only by such entries. *)
Inductive peer_ok : list block -> Prop :=
| pk_nil : peer_ok []
| pk_ac t id d p kd kh l : peer_ok l -> (autocrypt_timestamp l <= d)%Z -> nonempty kd = true ->
    valid_pref p = true -> peer_ok (Block t (EMsg (MsgEntry id d p kd kh)) :: l)
| pk_noac t id d l : peer_ok l -> (autocrypt_timestamp l <= d)%Z -> (last_seen l < d)%Z ->
    peer_ok (Block t (EMsg (MsgEntry id d (L "nopreference") [] [])) :: l)
| pk_gossip t id d kd kh l : peer_ok l -> (autocrypt_timestamp l <= d)%Z -> nonempty kd = true ->
    peer_ok (Block t (EGossip (GossipEntry id d kd kh)) :: l).

(** An own-settings log: configurations of this account, at most one key, a configuration
    before everything else. *)
Inductive own_ok (a : text) : list block -> Prop :=
| ok_cfg0 t c : valid_cfg c = true -> cf_name c = a -> own_ok a [Block t (ECfg c)]
| ok_cfg t c l : own_ok a l -> valid_cfg c = true -> cf_name c = a -> own_ok a (Block t (ECfg c) :: l)
| ok_keygen t kd kh l : own_ok a l -> latest_keygen l = None ->
    own_ok a (Block t (EKeygen (KeygenEntry kd kh)) :: l).

Definition is_verif (b : block) : Prop := match bl_entry b with EVerif _ => True | _ => False end.

Inductive log_ok : text -> list block -> Prop :=
| lo_mgr t : log_ok mgr_chain [Block t (EACfg (ACfgEntry (L "0.1")))]
| lo_own a l : isalnum a = true -> own_ok a l -> log_ok (own_chain a) l
| lo_oob a l : isalnum a = true -> l <> [] -> Forall is_verif l -> log_ok (oob_chain a) l
| lo_peer a addr l : isalnum a = true -> l <> [] -> peer_ok l -> log_ok (peer_chain a addr) l.

Record WF (s : ast) : Prop := {
  wf_nodup : NoDup (dkeys (a_logs s));
  wf_logs : forall n l, dget (a_logs s) n = Some l -> log_ok n l;
  wf_version : a_logs s <> [] -> version_of s <> None
}.

(** ** A logic for programs *)
Definition ends_well {A} (Sc : label -> Prop) (p : prog cop A) (Post : A -> ast -> Prop) (Ex : ast -> Prop) (s : ast) : Prop :=
  exists ls, path s ls (fst (arun p s)) /\ Forall Sc ls /\ WF (fst (arun p s)) /\
    match snd (arun p s) with
    | Ok a => Post a (fst (arun p s))
    | Err _ => Ex (fst (arun p s))
    end.
(** the same steps also lead to the states in which a process may be killed *)
Definition stops_well {A} (Sc : label -> Prop) (p : prog cop A) (s : ast) : Prop :=
  forall n, exists ls ls', path s ls (stop (@astep _) n p s) /\ Forall Sc ls /\
    path (stop (@astep _) n p s) ls' (fst (arun p s)) /\ Forall Sc ls'.
Definition triple {A} (Pre : ast -> Prop) (Sc : label -> Prop) (p : prog cop A)
  (Post : A -> ast -> Prop) (Ex : ast -> Prop) : Prop :=
  forall s, WF s -> Pre s -> ends_well Sc p Post Ex s /\ stops_well Sc p s.

(** a program that changes the state at most once *)
Definition atomic {A} (p : prog cop A) (s : ast) : Prop :=
  forall n, stop (@astep _) n p s = s \/ stop (@astep _) n p s = fst (arun p s).
Lemma atomic_ret {A} (a : A) s : atomic (Ret a) s. Proof. intros n. left. apply stop_ret. Qed.
Lemma atomic_raise {A} e s : atomic (@Raise cop A e) s. Proof. intros n. left. apply stop_raise. Qed.
Lemma atomic_lift {A} (r : result A) s : atomic (lift r) s. Proof. destruct r; [apply atomic_ret|apply atomic_raise]. Qed.
Lemma atomic_perform {X} (o : cop X) s : atomic (perform o) s.
Proof.
  intros [|n]; [left; reflexivity|]. right. unfold perform, arun. cbn [stop run]. destruct (astep o s) as [s' x]. apply stop_ret.
Qed.
(** first something that changes nothing *)
Lemma atomic_bind {A B} (p : prog cop A) (f : A -> prog cop B) s :
  (forall n, stop (@astep _) n p s = s) -> (forall a, snd (arun p s) = Ok a -> atomic (f a) s) -> atomic (bind p f) s.
Proof.
  intros H1 H2 n. assert (Hs : fst (arun p s) = s).
  { destruct (stop_whole (@astep _) p s) as [m Hm]. unfold arun. rewrite <- Hm. apply H1. }
  unfold arun. rewrite run_bind. fold (arun p s). destruct (stop_bind (@astep _) p f n s) as [->|[a [m [Ha ->]]]]; [left; apply H1|].
  fold (arun p s) in *. rewrite Hs. destruct (H2 a Ha m) as [->| ->]; [left; reflexivity|right].
  destruct (arun p s) as [s1 r]; cbn [fst snd] in *; subst. reflexivity.
Qed.
(** last something that changes nothing *)
Lemma atomic_then {A B} (p : prog cop A) (f : A -> prog cop B) s :
  atomic p s -> (forall a s' n, stop (@astep _) n (f a) s' = s') -> atomic (bind p f) s.
Proof.
  intros H1 H2 n. assert (Hs : fst (arun (bind p f) s) = fst (arun p s)).
  { unfold arun. rewrite run_bind. destruct (run _ p s) as [s1 [a|e]]; [|reflexivity]. cbn [fst].
    destruct (stop_whole (@astep _) (f a) s1) as [m Hm]. rewrite <- Hm. apply H2. }
  rewrite Hs. destruct (stop_bind (@astep _) p f n s) as [->|[a [m [Ha ->]]]]; [apply H1|].
  right. rewrite H2. reflexivity.
Qed.
Lemma stop_read n m s : stop (@astep _) m (perform (CRead n)) s = s.
Proof. destruct m as [|m]; [reflexivity|]. cbn [stop perform astep]. apply stop_ret. Qed.
Lemma stop_heads m s : stop (@astep _) m (perform CHeads) s = s.
Proof. destruct m as [|m]; [reflexivity|]. cbn [stop perform astep]. apply stop_ret. Qed.
Lemma stop_lift {A} (r : result A) m s : stop (@astep _) m (lift r) s = s.
Proof. destruct r; [apply stop_ret|apply stop_raise]. Qed.
Lemma atomic_stops {A} (Sc : label -> Prop) (p : prog cop A) Post Ex s :
  atomic p s -> ends_well Sc p Post Ex s -> stops_well Sc p s.
Proof.
  intros Ha [ls [H1 [H2 _]]] n. destruct (Ha n) as [->| ->]; [exists [], ls|exists ls, []]; repeat split; auto; constructor.
Qed.
Lemma quiet_stops {A} (Sc : label -> Prop) (p : prog cop A) s : (forall n, stop (@astep _) n p s = s) -> stops_well Sc p s.
Proof.
  intros H n. rewrite H. destruct (stop_whole (@astep _) p s) as [m Hm]. rewrite H in Hm. unfold arun. rewrite <- Hm.
  exists [], []. repeat split; constructor.
Qed.

(** [I] is kept throughout, results satisfy [Q]. *)
Definition inv {A} (I : ast -> Prop) (Sc : label -> Prop) (p : prog cop A) (Q : A -> Prop) : Prop :=
  triple I Sc p (fun a s => I s /\ Q a) I.

Lemma arun_bind {A B} (p : prog cop A) (f : A -> prog cop B) s :
  arun (bind p f) s =
  match arun p s with (s', Ok a) => arun (f a) s' | (s', Err e) => (s', Err e) end.
Proof. apply run_bind. Qed.

Lemma arun_catch {A} (p : prog cop A) h s :
  arun (catch p h) s =
  match arun p s with
  | (s', Ok a) => (s', Ok a)
  | (s', Err e) => match h e with Some q => arun q s' | None => (s', Err e) end
  end.
Proof. apply run_catch. Qed.

Lemma triple_conseq {A} (Pre Pre' : ast -> Prop) (Sc Sc' : label -> Prop) (p : prog cop A) (Post Post' : A -> ast -> Prop) (Ex Ex' : ast -> Prop) :
  (forall s, WF s -> Pre' s -> Pre s) -> (forall l, Sc l -> Sc' l) -> (forall a s, WF s -> Post a s -> Post' a s) ->
  (forall s, Ex s -> Ex' s) ->
  triple Pre Sc p Post Ex -> triple Pre' Sc' p Post' Ex'.
Proof.
  intros H1 H2 H3 H4 H s Hw Hs. destruct (H s Hw (H1 s Hw Hs)) as [[ls [Hp [HF [Hw' Hr]]]] Hst].
  split; [|intros n; destruct (Hst n) as [l0 [l1 [Ha [Hb [Hc Hd]]]]]; exists l0, l1; repeat split; try assumption; eapply Forall_impl; eauto].
  exists ls. split; [exact Hp|]. split; [eapply Forall_impl; eauto|]. split; [exact Hw'|].
  destruct (snd (arun p s)); auto.
Qed.

Lemma triple_ret {A} (Pre : ast -> Prop) Sc (a : A) (Post : A -> ast -> Prop) (Ex : ast -> Prop) :
  (forall s, WF s -> Pre s -> Post a s) -> triple Pre Sc (Ret a) Post Ex.
Proof. intros H s Hw Hs. split; [|apply quiet_stops; intros; apply stop_ret]. exists []. simpl. split; [constructor|]. auto. Qed.

Lemma triple_raise {A} (Pre : ast -> Prop) Sc e (Post : A -> ast -> Prop) (Ex : ast -> Prop) :
  (forall s, WF s -> Pre s -> Ex s) -> triple Pre Sc (Raise e) Post Ex.
Proof. intros H s Hw Hs. split; [|apply quiet_stops; intros; apply stop_raise]. exists []. simpl. split; [constructor|]. auto. Qed.

Lemma triple_bind {A B} Pre Sc (p : prog cop A) (f : A -> prog cop B) (Mid : A -> ast -> Prop) (Post : B -> ast -> Prop) (Ex : ast -> Prop) :
  triple Pre Sc p Mid Ex -> (forall a, triple (Mid a) Sc (f a) Post Ex) ->
  triple Pre Sc (bind p f) Post Ex.
Proof.
  intros H1 H2 s Hw Hs. destruct (H1 s Hw Hs) as [[ls [Hp [HF [Hw' Hr]]]] Hst]. split.
  2:{ intros n. destruct (stop_bind (@astep _) p f n s) as [->|[a [m [Ha ->]]]].
      - destruct (Hst n) as [l1 [l2 [G1 [G2 [G3 G4]]]]]. exists l1. rewrite arun_bind.
        destruct (arun p s) as [s1 [a|e]]; cbn [fst snd] in *.
        + destruct (H2 a s1 Hw' Hr) as [[ls2 [Hp2 [HF2 _]]] _]. exists (l2 ++ ls2).
          repeat split; try assumption; [eapply path_app; eauto|apply Forall_app; auto].
        + exists l2. auto.
      - fold (arun p s) in *. rewrite Ha in Hr. destruct (H2 a _ Hw' Hr) as [_ Hst2]. destruct (Hst2 m) as [l1 [l2 [G1 [G2 [G3 G4]]]]].
        exists (ls ++ l1), l2. rewrite arun_bind. destruct (arun p s) as [s1 r1]; cbn [fst snd] in *. rewrite Ha.
        repeat split; try assumption; [eapply path_app; eauto|apply Forall_app; auto]. }
  unfold ends_well. rewrite arun_bind. destruct (arun p s) as [s1 [a|e]]; simpl in *.
  - destruct (H2 a s1 Hw' Hr) as [[ls2 [Hp2 [HF2 [Hw2 Hr2]]]] _].
    exists (ls ++ ls2). split; [eapply path_app; eauto|]. split; [apply Forall_app; auto|]. auto.
  - exists ls. auto.
Qed.

Lemma triple_catch {A} Pre Sc (p : prog cop A) h (Post : A -> ast -> Prop) (Ex : ast -> Prop) :
  triple Pre Sc p Post Ex -> (forall e q, h e = Some q -> triple Ex Sc q Post Ex) ->
  triple Pre Sc (catch p h) Post Ex.
Proof.
  intros H1 H2 s Hw Hs. destruct (H1 s Hw Hs) as [[ls [Hp [HF [Hw' Hr]]]] Hst]. split.
  2:{ intros n. destruct (stop_catch (@astep _) p h n s) as [->|[e [q [m [Ha [Eh ->]]]]]].
      - destruct (Hst n) as [l1 [l2 [G1 [G2 [G3 G4]]]]]. exists l1. rewrite arun_catch.
        destruct (arun p s) as [s1 [a|e]]; cbn [fst snd] in *; [exists l2; auto|]. destruct (h e) as [q|] eqn:Eh; [|exists l2; auto].
        destruct (H2 e q Eh s1 Hw' Hr) as [[ls2 [Hp2 [HF2 _]]] _]. exists (l2 ++ ls2).
        repeat split; try assumption; [eapply path_app; eauto|apply Forall_app; auto].
      - fold (arun p s) in *. rewrite Ha in Hr. destruct (H2 e q Eh _ Hw' Hr) as [_ Hst2]. destruct (Hst2 m) as [l1 [l2 [G1 [G2 [G3 G4]]]]].
        exists (ls ++ l1), l2. rewrite arun_catch. destruct (arun p s) as [s1 r1]; cbn [fst snd] in *. rewrite Ha, Eh.
        repeat split; try assumption; [eapply path_app; eauto|apply Forall_app; auto]. }
  unfold ends_well. rewrite arun_catch. destruct (arun p s) as [s1 [a|e]]; simpl in *.
  - exists ls. auto.
  - destruct (h e) as [q|] eqn:Eh.
    + destruct (H2 e q Eh s1 Hw' Hr) as [[ls2 [Hp2 [HF2 [Hw2 Hr2]]]] _].
      exists (ls ++ ls2). split; [eapply path_app; eauto|]. split; [apply Forall_app; auto|]. auto.
    + exists ls. auto.
Qed.

(** Case distinction on a function of the state. *)
Lemma triple_fix {A X} (f : ast -> X) Pre Sc (p : prog cop A) (Post : A -> ast -> Prop) (Ex : ast -> Prop) :
  (forall x, triple (fun s => Pre s /\ f s = x) Sc p Post Ex) -> triple Pre Sc p Post Ex.
Proof. intros H s Hw Hs. apply (H (f s) s Hw). auto. Qed.

Lemma inv_ret {A} (I : ast -> Prop) (Sc : label -> Prop) (a : A) (Q : A -> Prop) : Q a -> inv I Sc (Ret a) Q.
Proof. intros H. apply triple_ret. auto. Qed.
Lemma inv_raise {A} (I : ast -> Prop) (Sc : label -> Prop) e (Q : A -> Prop) : inv I Sc (Raise e) Q.
Proof. apply triple_raise. auto. Qed.
Lemma inv_lift {A} (I : ast -> Prop) (Sc : label -> Prop) (r : result A) (Q : A -> Prop) : (forall a, r = Ok a -> Q a) -> inv I Sc (lift r) Q.
Proof. intros H. destruct r; [apply inv_ret; auto | apply inv_raise]. Qed.
Lemma inv_assert (I : ast -> Prop) (Sc : label -> Prop) b : inv I Sc (assert_ b) (fun _ => b = true).
Proof. destruct b; [apply inv_ret; reflexivity | apply inv_raise]. Qed.
Lemma inv_bind {A B} (I : ast -> Prop) (Sc : label -> Prop) (p : prog cop A) (f : A -> prog cop B) (Q1 : A -> Prop) (Q2 : B -> Prop) :
  inv I Sc p Q1 -> (forall a, Q1 a -> inv I Sc (f a) Q2) -> inv I Sc (bind p f) Q2.
Proof.
  intros H1 H2. eapply triple_bind; [exact H1|]. intros a s Hw [Hs Hq]. apply (H2 a Hq s Hw Hs).
Qed.
(** the result is one the program has in a state satisfying the invariant *)
Lemma inv_result {A} (I : ast -> Prop) (Sc : label -> Prop) (p : prog cop A) (Q : A -> Prop) :
  inv I Sc p Q -> inv I Sc p (fun a => Q a /\ exists s, I s /\ snd (arun p s) = Ok a).
Proof.
  intros H s Hw Hs. destruct (H s Hw Hs) as [[ls [H1 [H2 [H3 H4]]]] Hst]. split; [|exact Hst]. exists ls. do 3 (split; [assumption|]).
  destruct (snd (arun p s)) as [x|e] eqn:Er; [|exact H4]. destruct H4 as [H4 H5]. split; [exact H4|]. split; [exact H5|].
  exists s. auto.
Qed.
Lemma inv_catch {A} (I : ast -> Prop) (Sc : label -> Prop) (p : prog cop A) h (Q : A -> Prop) :
  inv I Sc p Q -> (forall e q, h e = Some q -> inv I Sc q Q) -> inv I Sc (catch p h) Q.
Proof. intros H1 H2. apply triple_catch; auto. Qed.
Lemma inv_conseq {A} (I : ast -> Prop) (Sc Sc' : label -> Prop) (p : prog cop A) (Q Q' : A -> Prop) :
  (forall l, Sc l -> Sc' l) -> (forall a, Q a -> Q' a) -> inv I Sc p Q -> inv I Sc' p Q'.
Proof. intros H1 H2. apply triple_conseq; auto. intros a s _ [H3 H4]; auto. Qed.
Lemma inv_true {A} (I : ast -> Prop) (Sc : label -> Prop) (p : prog cop A) (Q : A -> Prop) : inv I Sc p Q -> inv I Sc p (fun _ => True).
Proof. apply inv_conseq; auto. Qed.
Lemma inv_foldM {A B} (I : ast -> Prop) (Sc : label -> Prop) (f : B -> A -> prog cop B) l b (Q : B -> Prop) :
  Q b -> (forall b a, Q b -> In a l -> inv I Sc (f b a) Q) -> inv I Sc (foldM f l b) Q.
Proof.
  revert b; induction l as [|x l IH]; intros b Hb H; simpl; [apply inv_ret; auto|].
  eapply inv_bind; [apply H; simpl; auto|]. intros b' Hb'. apply IH; auto. intros; apply H; simpl; auto.
Qed.
Lemma inv_mapM {A B} (I : ast -> Prop) (Sc : label -> Prop) (f : A -> prog cop B) l (Q : B -> Prop) :
  (forall a, In a l -> inv I Sc (f a) Q) -> inv I Sc (mapM f l) (Forall Q).
Proof.
  induction l as [|x l IH]; intros H; simpl; [apply inv_ret; auto|].
  eapply inv_bind; [apply H; simpl; auto|]. intros y Hy.
  eapply inv_bind; [apply IH; intros; apply H; simpl; auto|]. intros ys Hys. apply inv_ret. auto.
Qed.
Lemma inv_fix {A X} (f : ast -> X) (I : ast -> Prop) Sc (p : prog cop A) (Q : A -> Prop) :
  (forall x, inv (fun s => I s /\ f s = x) Sc p Q) -> inv I Sc p Q.
Proof.
  intros H. apply (triple_fix f). intros x. eapply triple_conseq; [| | | |apply (H x)]; simpl; auto.
  - intros a s _ [[H1 _] H2]; auto.
  - intros s [H1 _]; auto.
Qed.
Lemma inv_strengthen {A} (I J : ast -> Prop) Sc (p : prog cop A) (Q : A -> Prop) :
  inv (fun s => I s /\ J s) Sc p Q -> (forall s, WF s -> I s -> J s) -> inv I Sc p Q.
Proof.
  intros H HJ. eapply triple_conseq; [| | | |exact H]; simpl; auto.
  - intros a s _ [[H1 _] H2]; auto.
  - intros s [H1 _]; auto.
Qed.
Lemma inv_read (I : ast -> Prop) (Sc : label -> Prop) n (Q : list block -> Prop) : (forall s, WF s -> I s -> Q (alog s n)) -> inv I Sc (perform (CRead n)) Q.
Proof. intros H s Hw Hs. split; [|apply quiet_stops; intros; apply stop_read]. exists []. simpl. split; [constructor|]. auto. Qed.
Lemma inv_heads (I : ast -> Prop) (Sc : label -> Prop) (Q : list text -> Prop) : (forall s, WF s -> I s -> Q (dkeys (a_logs s))) -> inv I Sc (perform CHeads) Q.
Proof. intros H s Hw Hs. split; [|apply quiet_stops; intros; apply stop_heads]. exists []. simpl. split; [constructor|]. auto. Qed.

End Steps.
