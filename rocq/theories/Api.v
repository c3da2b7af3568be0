(** The API of the program as a data type: one constructor per call a user (or mail user
    agent, or the command line) can make on a state directory, and sessions of such calls. *)
From Verif Require Import Base PyStr Env Prog Chain Gpg Mime States Recommendation Account Cmdline Bot Fs.

Inductive api :=
(* AccountManager *)
| AAdd (name : text) (regex kh : option text) (gpgbin gpgmode : text)
| AMod (name : text) (regex kh gpgbin pref : option text)
| ADel (name : text)
| AFind (emailadr : text) (raising : bool)
| AList
| ARoute (m : msg)
| ARemove
(* Account *)
| AIncoming (name : text) (m : msg) (ignore_existing no_decrypt : bool)
| AOutgoing (name : text) (m : msg)
| AEncrypt (name : text) (m : msg) (toaddrs : list text)
| ADecrypt (name : text) (m : msg)
| ARecommend (name : text) (addrs : list text) (reply_to_enc : bool)
| AHeader (name emailadr : text)
| AExportPub (name : text) (kh : option text)
| AExportSec (name : text)
| AImport (name : text) (addr : option text) (keydata : bytes) (pref : text)
| APeer (name addr : text)
| APeers (name : text)
| AOwn (name : text)
(* out-of-band verification state *)
| AVerifySelf (name addr : text) (pk : bytes)
| AVerifyPeer (name addr : text) (pk : bytes)
| AGetVerif (name addr : text)
(* command line *)
| ACliAdd (name : text) (use_system : bool) (use_key : option text) (gpgbin : text) (regex : option text)
| ACliMod (name : text) (use_key gpgbin regex pref : option text)
| ACliDel (name : text)
| ACliDestroy (yes : bool)
| ACliStatus (verbose : bool)
| ACliIncoming (name : option text) (reparse no_decrypt : bool) (m : msg)
| ACliScandir (reparse : bool) (files : list (Z * msg))
| ACliOutgoing (m : msg)
| ACliPeerstate (name emailadr : text)
| ABot (fallback : option text) (body : text) (m : msg).

(** Everything PeerState reports about a peer. *)
Record peer_view := PeerView {
  pv_addr : text; pv_last_seen : Z; pv_ac_timestamp : Z;
  pv_keyhandle : text; pv_keydata : bytes; pv_pref : text; pv_direct : bool;
  pv_entry : option (msg_entry + gossip_entry);
  pv_latest_ac : option msg_entry;
  pv_latest_gossip : option gossip_entry }.

Inductive outcome :=
| ONone
| OText (t : text)
| OTexts (l : list text)
| OOptText (t : option text)
| OBytes (b : bytes)
| OMod (changed : bool) (name : text)
| OIncoming (i : option incoming)
| OOutgoing (o : outgoing)
| OEncrypted (m : msg) (khs : list text)
| ODecrypted (m : msg) (infos : list (text * text))
| OImport (r : import_result)
| OPeer (v : peer_view)
| OOwn (c : cfg_entry) (kh : text)
| OVerif (v : option verif_entry)
| OStatus (l : list status_account)
| OCliMod (changed : bool) (s : status_account)
| OCliIncoming (r : option (text * bool))
| OScan (l : list scan_status)
| OMsg (m : msg)
| OOptMsg (m : option msg)
| OPeerstate (p : peerstate_out)
| OBool (b : bool).

Section Api.
Context {E : Env}.

Definition view_of (chain : text) (l : list block) : peer_view :=
  PeerView (peer_addr chain) (last_seen l) (autocrypt_timestamp l) (public_keyhandle l)
    (public_keydata l) (peer_prefer_encrypt l) (has_direct_key l) (entry_for_encryption l)
    (latest_ac_entry l) (latest_gossip_entry l).

(** [manager.get_account(name)] followed by a method call *)
Definition with_account {A} (name : text) (f : text -> prog cop A) : prog cop A :=
  a <- get_account name true ;; f a.

Definition exec (c : api) : prog cop outcome :=
  match c with
  | AAdd n regex kh bin mode => a <- add_account n regex kh bin mode ;; Ret (OText a)
  | AMod n regex kh bin pref => '(ch, a) <- mod_account n regex kh bin pref ;; Ret (OMod ch a)
  | ADel n => del_account n ;;; Ret ONone
  | AFind adr raising => r <- get_account_from_emailadr adr raising ;; Ret (OOptText r)
  | AList => l <- list_account_names ;; Ret (OTexts l)
  | ARoute m => a <- get_matching_account m ;; Ret (OText a)
  | ARemove => remove_all ;;; Ret ONone
  | AIncoming n m ign nodec =>
      with_account n (fun a => i <- process_incoming a m ign nodec ;; Ret (OIncoming i))
  | AOutgoing n m => with_account n (fun a => o <- process_outgoing a m ;; Ret (OOutgoing o))
  | AEncrypt n m to => with_account n (fun a => '(em, khs) <- encrypt_mime a m to ;; Ret (OEncrypted em khs))
  | ADecrypt n m => with_account n (fun a => '(dm, infos) <- decrypt_mime a m ;; Ret (ODecrypted dm infos))
  | ARecommend n addrs reply =>
      with_account n (fun a => r <- recommend a (map Some addrs) reply None ;; Ret (OOptText r))
  | AHeader n adr => with_account n (fun a => h <- make_ac_header a adr ;; Ret (OText h))
  | AExportPub n kh => with_account n (fun a => b <- export_public_key a kh ;; Ret (OBytes b))
  | AExportSec n => with_account n (fun a => b <- export_secret_key a ;; Ret (OBytes b))
  | AImport n addr kd pref =>
      with_account n (fun a => r <- import_keydata_as_autocrypt a addr kd pref ;; Ret (OImport r))
  | APeer n addr =>
      with_account n (fun a =>
        let chain := peerstate_chain a addr in
        l <- perform (CRead chain) ;; Ret (OPeer (view_of chain l)))
  | APeers n => with_account n (fun a => l <- get_peername_list a ;; Ret (OTexts l))
  | AOwn n => with_account n (fun a => c <- own_config a ;; kh <- own_keyhandle a ;; Ret (OOwn c kh))
  | AVerifySelf n addr pk => with_account n (fun a => append_self_verification a addr pk ;;; Ret ONone)
  | AVerifyPeer n addr pk => with_account n (fun a => append_peer_verification a addr pk ;;; Ret ONone)
  | AGetVerif n addr => with_account n (fun a => v <- get_verification a addr ;; Ret (OVerif v))
  | ACliAdd n sys key bin regex => s <- cli_add_account n sys key bin regex ;; Ret (OStatus [s])
  | ACliMod n key bin regex pref => '(ch, s) <- cli_mod_account n key bin regex pref ;; Ret (OCliMod ch s)
  | ACliDel n => l <- cli_del_account n ;; Ret (OStatus l)
  | ACliDestroy yes => b <- cli_destroy_all yes ;; Ret (OBool b)
  | ACliStatus v => l <- cli_status v ;; Ret (OStatus l)
  | ACliIncoming n reparse nodec m => r <- cli_process_incoming n reparse nodec m ;; Ret (OCliIncoming r)
  | ACliScandir reparse files => l <- cli_scandir reparse files ;; Ret (OScan l)
  | ACliOutgoing m => m' <- cli_process_outgoing m ;; Ret (OMsg m')
  | ACliPeerstate n adr => p <- cli_peerstate n adr ;; Ret (OPeerstate p)
  | ABot fb body m => r <- bot_reply fb body m ;; Ret (OOptMsg r)
  end.

(** A session: calls in order; a call that raises ends only itself.  Outputs in order. *)
Fixpoint session (h : list api) (s : ast) : ast * list (result outcome) :=
  match h with
  | [] => (s, [])
  | c :: h' =>
    let (s1, r) := arun (exec c) s in
    let (s2, rs) := session h' s1 in
    (s2, r :: rs)
  end.

(** The same session on files. *)
Fixpoint fsession (h : list api) (s : fstate) : fstate * list (result outcome) :=
  match h with
  | [] => (s, [])
  | c :: h' =>
    let (s1, r) := frun (on_files (exec c)) s in
    let (s2, rs) := fsession h' s1 in
    (s2, r :: rs)
  end.

(** A call whose process is killed after [n] operations (reading or appending to a log, a gpg
    process, ...) of the call. *)
Definition killed (s : ast) (c : api) (n : nat) : ast := stop (@astep _) n (exec c) s.
(** Calls in order, some of which are killed. *)
Fixpoint lived (h : list (api * option nat)) (s : ast) : ast :=
  match h with
  | [] => s
  | (c, None) :: h' => lived h' (fst (arun (exec c) s))
  | (c, Some n) :: h' => lived h' (killed s c n)
  end.
(** States that calls reach from a fresh directory when none is killed. *)
Definition reached (s : ast) : Prop := exists h, s = fst (session h ast0).
(** States that are reached from a fresh directory by calls, also if some of them are killed. *)
Definition reachable (s : ast) : Prop := exists h, s = lived h ast0.

Lemma session_app h1 h2 s :
  session (h1 ++ h2) s =
  (let (s1, r1) := session h1 s in let (s2, r2) := session h2 s1 in (s2, r1 ++ r2)).
Proof.
  revert s; induction h1 as [|c h1 IH]; intros s; simpl.
  - destruct (session h2 s); reflexivity.
  - destruct (arun (exec c) s) as [s1 r]. rewrite IH.
    destruct (session h1 s1) as [s2 r2]. destruct (session h2 s2); reflexivity.
Qed.

Lemma lived_app h1 h2 s : lived (h1 ++ h2) s = lived h2 (lived h1 s).
Proof. revert s; induction h1 as [|[c [n|]] h1 IH]; intros s; cbn [app lived]; auto. Qed.

Lemma reachable_step s c : reachable s -> reachable (fst (arun (exec c) s)).
Proof. intros [h ->]. exists (h ++ [(c, None)]). rewrite lived_app. reflexivity. Qed.
Lemma reachable_killed s c n : reachable s -> reachable (killed s c n).
Proof. intros [h ->]. exists (h ++ [(c, Some n)]). rewrite lived_app. reflexivity. Qed.

Lemma session_lived h s : fst (session h s) = lived (map (fun c => (c, None)) h) s.
Proof.
  revert s; induction h as [|c h IH]; intros s; [reflexivity|]. cbn [session map lived].
  destruct (arun (exec c) s) as [s1 r]. cbn [fst]. rewrite <- IH. destruct (session h s1). reflexivity.
Qed.
Lemma reached_init : reached ast0. Proof. exists []. reflexivity. Qed.
Lemma reached_reachable s : reached s -> reachable s.
Proof. intros [h ->]. exists (map (fun c => (c, None)) h). apply session_lived. Qed.

(** Induction over reachable states.  (A call that is not killed ends like one that is killed
    after all its operations.) *)
Lemma reachable_ind (P : ast -> Prop) :
  P ast0 -> (forall s c n, reachable s -> P s -> P (killed s c n)) ->
  forall s, reachable s -> P s.
Proof.
  intros H0 Hs s [h ->].
  induction h as [|[c o] h IH] using rev_ind; [exact H0|]. rewrite lived_app.
  assert (Hr : reachable (lived h ast0)) by (exists h; reflexivity).
  destruct o as [n|]; cbn [lived]; [apply Hs; auto|].
  destruct (stop_whole (@astep _) (exec c) (lived h ast0)) as [n Hn]. unfold arun. rewrite <- Hn. apply Hs; auto.
Qed.

End Api.
