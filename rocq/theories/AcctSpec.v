(** Vocabulary of the account properties C39-C49. *)
From Verif Require Import Base PyStr Env Prog Chain Gpg Mime States Account Cmdline Bot Fs Api Spec PeerSpec OutSpec.
From Coq Require Import Sorting.Sorted.

(** the account a call names *)
Definition names (c : api) : option text :=
  match c with
  | AAdd n _ _ _ _ | AMod n _ _ _ _ | ADel n | AIncoming n _ _ _ | AOutgoing n _ | AEncrypt n _ _
  | ADecrypt n _ | ARecommend n _ _ | AHeader n _ | AExportPub n _ | AExportSec n | AImport n _ _ _
  | APeer n _ | APeers n | AOwn n | AVerifySelf n _ _ | AVerifyPeer n _ _ | AGetVerif n _
  | ACliAdd n _ _ _ _ | ACliMod n _ _ _ _ | ACliDel n | ACliIncoming (Some n) _ _ _ | ACliPeerstate n _ => Some n
  | _ => None
  end.
(** the account a call creates, with its gpg mode *)
Definition creates (c : api) : option (text * text) :=
  match c with
  | AAdd n _ _ _ mode => Some (n, mode)
  | ACliAdd n sys _ _ _ => Some (n, if sys then L "system" else L "own")
  | _ => None
  end.
(** the settings it gets *)
Definition default_regex (r : option text) : text := match r with Some r => r | None => L ".*" end.
Definition first_settings (c : api) : option cfg_entry :=
  match c with
  | AAdd n regex _ bin mode => Some (CfgEntry (L "nopreference") n (default_regex regex) mode bin)
  | ACliAdd n sys _ bin regex => Some (CfgEntry (L "nopreference") n (default_regex regex) (if sys then L "system" else L "own") bin)
  | _ => None
  end.
(** settings with the given ones replaced *)
Definition with_changes (c : cfg_entry) (regex bin pref : option text) : cfg_entry :=
  CfgEntry (match pref with Some p => p | None => cf_pref c end) (cf_name c)
           (match regex with Some r => r | None => cf_regex c end) (cf_mode c)
           (match bin with Some b => b | None => cf_bin c end).
Definition preference (pref : option text) : Prop :=
  match pref with Some p => p = L "nopreference" \/ p = L "mutual" | None => True end.
(** the calls that change settings of account [a] *)
Definition modifies (a : text) (c : api) : bool :=
  match c with AMod n _ _ _ _ | ACliMod n _ _ _ _ => text_eqb n a | _ => false end.

(** ** Key listings of gpg: one record per line, fields separated by colons *)
Inductive record := RPub (id uid : text) | RSub (id uid : text) | RUid (uid : text) | ROther.
Definition record_of (line : text) : record :=
  let field i := nth i (split_on 58 line) [] in
  if text_eqb (field 0) (L "pub") then RPub (field 4) (field 9)
  else if text_eqb (field 0) (L "sub") then RSub (field 4) (field 9)
  else if text_eqb (field 0) (L "uid") then RUid (field 9)
  else ROther.
Definition given (uid : text) : list text := match uid with [] => [] | _ => [uid] end.
(** the user ids that follow a "pub" record, up to the next one *)
Fixpoint until_pub (rs : list record) : list text :=
  match rs with
  | RUid u :: rs' => u :: until_pub rs'
  | RPub _ _ :: _ | [] => []
  | _ :: rs' => until_pub rs'
  end.
(** the user ids of the first key with this id *)
Fixpoint users_of (id : text) (rs : list record) : list text :=
  match rs with
  | RPub i u :: rs' => if text_eqb i id then given u ++ until_pub rs' else users_of id rs'
  | RSub i u :: rs' => if text_eqb i id then given u else users_of id rs'
  | _ :: rs' => users_of id rs'
  | [] => []
  end.

Section AcctSpec.
Context {E : Env}.

(** what a user sees of account [b] *)
Definition same_account (s s' : ast) (b : text) : Prop :=
  own_of s' b = own_of s b /\ peers_of s' b = peers_of s b /\
  (forall x, peer_of s' b x = peer_of s b x) /\ (forall x, verif_of s' b x = verif_of s b x).
(** nothing at all is different, neither for the user nor in a key ring *)
Definition same_everything (s s' : ast) : Prop :=
  accounts_of s' = accounts_of s /\ (forall b, same_account s s' b) /\
  a_rings s' = a_rings s /\ a_trace s' = a_trace s.

(** nothing but the settings of account [a] is different *)
Definition only_settings (s s' : ast) (a : text) : Prop :=
  accounts_of s' = accounts_of s /\ (forall b, b <> a -> same_account s s' b) /\
  peers_of s' a = peers_of s a /\ (forall x, peer_of s' a x = peer_of s a x) /\ (forall x, verif_of s' a x = verif_of s a x).

(** what is reported about a peer nothing is known of *)
Definition unknown_peer (x : text) : peer_view := PeerView (norm x) 0 0 [] [] [] false None None None.

(** ** Address lookup *)
Definition matches (s : ast) (adr a : text) : Prop :=
  exists c kh, own_of s a = Some (c, kh) /\ re_match (cf_regex c) adr = Ok true.
Definition misses (s : ast) (adr a : text) : Prop :=
  exists c kh, own_of s a = Some (c, kh) /\ re_match (cf_regex c) adr = Ok false.
(** every listed account is complete: has settings and a key *)
Definition complete (s : ast) : Prop := forall a, In a (accounts_of s) -> has_account s a.
(** order of strings by code points *)
Definition before (a b : text) : Prop := text_leb a b = true /\ a <> b.

(** the first account in this order that matches; no account matches *)
Definition first_of (s : ast) (adr a : text) : Prop :=
  In a (accounts_of s) /\ matches s adr a /\ forall b, In b (accounts_of s) -> before b a -> misses s adr b.
Definition none_of (s : ast) (adr : text) : Prop := forall b, In b (accounts_of s) -> misses s adr b.
(** the address a mail was delivered to *)
Definition delivered (m : msg) : text := parse_email_addr (hget m (L "Delivered-To")).

(** an empty directory at the same time, with the same system key ring *)
Definition empty_directory (s : ast) : ast := AState [] [([], ring_at (a_rings s) [])] (a_tick s) (a_uuid s) [].

(** ** Key rings *)
(** the key ring an account uses: its own one, or the one of the system *)
Definition ring_of_mode (a mode : text) : text := if text_eqb mode (L "own") then own_gpghome a else [].
Definition ring_content (s : ast) (home : text) : ring := ring_at (a_rings s) home.
(** gpg was only run with key rings satisfying [H], and only they changed *)
Definition confined (H : text -> Prop) (s s' : ast) : Prop :=
  (exists l, a_trace s' = l ++ a_trace s /\ Forall (fun g => H (gc_home g)) l) /\
  forall h, ~ H h -> ring_content s' h = ring_content s h.
(** calls that create accounts only with key rings of their own *)
Definition only_own (c : api) : Prop := forall n mode, creates c = Some (n, mode) -> mode = L "own".
Definition an_own_home (h : text) : Prop := exists a, isalnum a = true /\ h = own_gpghome a.

(** the version log of the state directory *)
Definition version_log (s : ast) : list block := alog s (L ".").
(** calls that delete everything; the command does nothing if there is no version *)
Definition destroys (s : ast) (c : api) : Prop := c = ARemove \/ (c = ACliDestroy true /\ version_log s <> []).

(** Between [s] and [s'] gpg listed the key [kh], and these are its user ids. *)
Definition listed_users (s s' : ast) (kh : text) (us : list text) : Prop :=
  exists home argv r out, ran s s' (GCall home argv None None) /\
    (exists pre, argv = pre ++ [L "--with-colons"; L "--list-public-keys"; kh]) /\
    utf8 (g_out (snd (gpg r argv None None))) = Some out /\
    us = users_of kh (map record_of (splitlines out)).
(** the key of a peer, received directly *)
Definition direct_key (v : peer_view) (date : Z) (pref key kh : text) : Prop :=
  pv_latest_ac v = Some (MsgEntry [] date pref key kh) /\
  (kh <> [] -> pv_direct v = true /\ pv_keydata v = key /\ pv_keyhandle v = kh /\ pv_pref v = pref).

End AcctSpec.
