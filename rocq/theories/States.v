(** /repo/muacrypt/states.py: chain names, per-peer state, own state, out-of-band
    verifications, account manager state. *)
From Verif Require Import Base PyStr Env Prog Chain Mime.

Section States.
Context {E : Env}.

(** * Chain names (states.py:27-30, 57-73) *)
Definition mgr_chain : text := L ".".
Definition own_chain (acct : text) : text := L "own:" ++ acct.
Definition oob_chain (acct : text) : text := L "oob:" ++ acct.
Definition peer_prefix (acct : text) : text := L "peer:" ++ acct ++ L ":".
Definition peer_chain (acct addr : text) : text := peer_prefix acct ++ addr.

(** states.py:67-68 get_own_gpghome.  os.path.join with a name that contains no slash
    (account names are alphanumeric). *)
Definition own_gpghome (acct : text) : text := basedir ++ L "/gpg/" ++ acct.

(** chainstore.py:99-107 _getheads(prefix), states.py:47-48 get_account_names and 53-55
    get_peername_list *)
Definition with_prefix (p : text) (names : list text) : list text :=
  map (skipn (length p)) (filter (startswith p) names).
Definition get_account_names : prog cop (list text) :=
  names <- perform CHeads ;; Ret (sorted (with_prefix (own_chain []) names)).
Definition get_peername_list (acct : text) : prog cop (list text) :=
  names <- perform CHeads ;; Ret (sorted (with_prefix (peer_prefix acct) names)).
(** states.py:50-51 get_num_peers calls get_peername_list without its argument; no other code
    uses it *)
Definition get_num_peers (acct : text) : prog cop nat := Raise TypeError.

(** states.py:75-80 remove_account.  A chain named "own" or "peer" without a colon would
    raise IndexError; such names are never created. *)
Definition match_account (acct key : text) : bool :=
  match split_max 58 2 key with
  | l0 :: l1 :: _ => mem_text l0 [L "own"; L "peer"] && text_eqb l1 acct
  | _ => false
  end.
Definition remove_account (acct : text) : prog cop unit := perform (CRemoveIf (match_account acct)).

(** * PeerState (states.py:106-233).  Chain.iter_entries(MsgEntry) etc. as lists. *)
Fixpoint msg_entries (l : list block) : list msg_entry :=
  match l with
  | [] => []
  | b :: l' => match bl_entry b with EMsg e => e :: msg_entries l' | _ => msg_entries l' end
  end.
Fixpoint gossip_entries (l : list block) : list gossip_entry :=
  match l with
  | [] => []
  | b :: l' => match bl_entry b with EGossip e => e :: gossip_entries l' | _ => gossip_entries l' end
  end.
Fixpoint keygen_entries (l : list block) : list keygen_entry :=
  match l with
  | [] => []
  | b :: l' => match bl_entry b with EKeygen e => e :: keygen_entries l' | _ => keygen_entries l' end
  end.
Fixpoint cfg_entries (l : list block) : list cfg_entry :=
  match l with
  | [] => []
  | b :: l' => match bl_entry b with ECfg e => e :: cfg_entries l' | _ => cfg_entries l' end
  end.
Fixpoint verif_entries (l : list block) : list verif_entry :=
  match l with
  | [] => []
  | b :: l' => match bl_entry b with EVerif e => e :: verif_entries l' | _ => verif_entries l' end
  end.
Fixpoint acfg_entries (l : list block) : list acfg_entry :=
  match l with
  | [] => []
  | b :: l' => match bl_entry b with EACfg e => e :: acfg_entries l' | _ => acfg_entries l' end
  end.

(** states.py:109 (addr): name.split(":", 2)[-1] *)
Definition peer_addr (chain : text) : text := last (split_max 58 2 chain) [].

(** states.py:151-155 _latest_ac_entry, 157-159 latest_gossip_entry, 161-163 _latest_msg_entry *)
Definition latest_ac_entry (l : list block) : option msg_entry :=
  find (fun e => nonempty (me_keydata e)) (msg_entries l).
Definition latest_gossip_entry (l : list block) : option gossip_entry := hd_error (gossip_entries l).
Definition latest_msg_entry (l : list block) : option msg_entry := hd_error (msg_entries l).

(** states.py:120-126 last_seen, autocrypt_timestamp *)
Definition last_seen (l : list block) : Z :=
  match latest_msg_entry l with Some e => me_date e | None => 0%Z end.
Definition autocrypt_timestamp (l : list block) : Z :=
  match latest_ac_entry l with Some e => me_date e | None => 0%Z end.

(** states.py:136-145 has_direct_key, entry_for_encryption *)
Definition has_direct_key (l : list block) : bool :=
  match latest_ac_entry l with Some e => nonempty (me_kh e) | None => false end.
Definition entry_for_encryption (l : list block) : option (msg_entry + gossip_entry) :=
  if has_direct_key l then option_map inl (latest_ac_entry l)
  else option_map inr (latest_gossip_entry l).

(** states.py:128-134, 147-149 public_keyhandle, public_keydata, prefer_encrypt *)
Definition public_keyhandle (l : list block) : text :=
  match entry_for_encryption l with
  | Some (inl e) => me_kh e | Some (inr e) => ge_kh e | None => [] end.
Definition public_keydata (l : list block) : bytes :=
  match entry_for_encryption l with
  | Some (inl e) => me_keydata e | Some (inr e) => ge_keydata e | None => [] end.
Definition peer_prefer_encrypt (l : list block) : text :=
  match entry_for_encryption l with
  | Some (inl e) => me_pref e | _ => [] end.

(** states.py:165-172 get_message_entry, has_message *)
Definition get_message_entry (l : list block) (id : text) : option msg_entry :=
  find (fun e => text_eqb (me_id e) id) (msg_entries l).
Definition get_gossip_message_entry (l : list block) (id : text) : option gossip_entry :=
  find (fun e => text_eqb (ge_id e) id) (gossip_entries l).
Definition has_message (l : list block) (id : text) : bool :=
  match get_message_entry l id with Some _ => true | None => false end.

(** attr validators of MsgEntry / MsgGossipEntry (states.py:87-103, myattr.py).  [pref] and
    [kh] are Python values that may be None. *)
Definition valid_pref (p : text) : bool := mem_text p [L "nopreference"; L "mutual"].
Definition mk_msg_entry (id : text) (date : Z) (pref : option text) (kd : bytes) (kh : text) : result entry :=
  match pref with
  | Some p => if valid_pref p then Ok (EMsg (MsgEntry id date p kd kh)) else Err ValueError
  | None => Err ValueError
  end.
Definition mk_gossip_entry (id : text) (date : Z) (kd : bytes) (kh : option text) : result entry :=
  match kh with
  | Some h => Ok (EGossip (GossipEntry id date kd h))
  | None => Err TypeError
  end.

(** Python == between a stored value and an argument that may be None *)
Definition eq_opt (stored : list N) (arg : option (list N)) : bool :=
  match arg with Some x => text_eqb stored x | None => false end.

(** states.py:175-199 update_from_msg, 216-220 _append_ac_entry, 228-233 _append_noac_entry *)
Definition update_from_msg (chain : text) (id : text) (date : Z)
  (pref : option text) (kd : option bytes) (kh : option text) : prog cop unit :=
  l <- perform (CRead chain) ;;
  if Z.ltb date (autocrypt_timestamp l) then Ret tt
  else
    let dup := match get_message_entry l id with
               | Some e => Z.eqb (me_date e) date && eq_opt (me_keydata e) kd
                           && eq_opt (me_kh e) kh && eq_opt (me_pref e) pref
               | None => false end in
    if dup then Ret tt
    else
      let kd' := match kd with Some k => k | None => [] end in
      if negb (nonempty kd') then
        if Z.ltb (last_seen l) date then
          e <- lift (mk_msg_entry id date (Some (L "nopreference")) [] []) ;;
          perform (CAppend chain e)
        else Ret tt
      else
        e <- lift (mk_msg_entry id date pref kd' (match kh with Some h => h | None => [] end)) ;;
        perform (CAppend chain e).

(** states.py:201-214 update_from_msg_gossip, 222-226 _append_ac_gossip_entry *)
Definition update_from_msg_gossip (chain : text) (id : text) (date : Z)
  (kd : option bytes) (kh : option text) : prog cop unit :=
  l <- perform (CRead chain) ;;
  if Z.ltb date (autocrypt_timestamp l) then Ret tt
  else
    let kd' := match kd with Some k => k | None => [] end in
    if negb (nonempty kd') then Raise AssertionError
    else
      let dup := match get_gossip_message_entry l id with
                 | Some e => Z.eqb (ge_date e) date && eq_opt (ge_keydata e) kd
                             && eq_opt (ge_kh e) kh
                 | None => false end in
      if dup then Ret tt
      else
        e <- lift (mk_gossip_entry id date kd' kh) ;;
        perform (CAppend chain e).

(** * OwnState (states.py:240-317) *)
Definition latest_keygen (l : list block) : option keygen_entry := hd_error (keygen_entries l).
Definition latest_config (l : list block) : option cfg_entry := hd_error (cfg_entries l).
(** config_property: getattr(None, name) is an AttributeError *)
Definition own_config (acct : text) : prog cop cfg_entry :=
  l <- perform (CRead (own_chain acct)) ;;
  match latest_config l with Some c => Ret c | None => Raise AttributeError end.
Definition own_keyhandle (acct : text) : prog cop text :=
  l <- perform (CRead (own_chain acct)) ;;
  match latest_keygen l with Some k => Ret (kg_kh k) | None => Raise AttributeError end.
Definition is_configured (l : list block) : bool :=
  match latest_config l, latest_keygen l with Some _, Some _ => true | _, _ => false end.

Definition valid_mode (m : text) : bool := mem_text m [L "system"; L "own"].
Definition mk_cfg_entry (c : cfg_entry) : result entry :=
  if valid_pref (cf_pref c) && valid_mode (cf_mode c) then Ok (ECfg c) else Err ValueError.

(** states.py:297-301 new_config *)
Definition new_config (acct : text) (c : cfg_entry) : prog cop unit :=
  e <- lift (mk_cfg_entry c) ;; perform (CAppend (own_chain acct) e).

Definition cfg_eqb (a b : cfg_entry) : bool :=
  text_eqb (cf_pref a) (cf_pref b) && text_eqb (cf_name a) (cf_name b)
  && text_eqb (cf_regex a) (cf_regex b) && text_eqb (cf_mode a) (cf_mode b)
  && text_eqb (cf_bin a) (cf_bin b).

(** states.py:303-308 change_config(prefer_encrypt=, email_regex=, gpgbin=); None = keyword
    absent.  attr.evolve(None) is a TypeError.  Result: True, or None written false. *)
Definition change_config (acct : text) (pref regex bin : option text) : prog cop bool :=
  l <- perform (CRead (own_chain acct)) ;;
  match latest_config l with
  | None => Raise TypeError
  | Some c =>
    let c' := CfgEntry (match pref with Some p => p | None => cf_pref c end) (cf_name c)
                       (match regex with Some r => r | None => cf_regex c end) (cf_mode c)
                       (match bin with Some b => b | None => cf_bin c end) in
    e <- lift (mk_cfg_entry c') ;;
    if cfg_eqb c' c then Ret false
    else perform (CAppend (own_chain acct) e) ;;; Ret true
  end.

(** states.py:310-314 append_keygen *)
Definition append_keygen (acct : text) (kd : bytes) (kh : text) : prog cop unit :=
  perform (CAppend (own_chain acct) (EKeygen (KeygenEntry kd kh))).

(** * OOBState (states.py:332-354) *)
Definition get_verification (acct addr : text) : prog cop (option verif_entry) :=
  l <- perform (CRead (oob_chain acct)) ;;
  Ret (find (fun e => text_eqb addr (ve_addr e)) (verif_entries l)).
Definition append_self_verification (acct addr : text) (pk : bytes) : prog cop unit :=
  perform (CAppend (oob_chain acct) (EVerif (VerifEntry addr pk (L "self")))).
Definition append_peer_verification (acct addr : text) (pk : bytes) : prog cop unit :=
  perform (CAppend (oob_chain acct) (EVerif (VerifEntry addr pk (L "peer")))).

(** * AccountManagerState (states.py:367-384) *)
Definition mgr_version : prog cop (option text) :=
  l <- perform (CRead mgr_chain) ;;
  Ret (option_map ac_version (hd_error (acfg_entries l))).
Definition set_version (v : text) : prog cop unit :=
  l <- perform (CRead mgr_chain) ;;
  match hd_error (acfg_entries l) with
  | Some _ => Raise AssertionError
  | None => perform (CAppend mgr_chain (EACfg (ACfgEntry v)))
  end.

End States.
