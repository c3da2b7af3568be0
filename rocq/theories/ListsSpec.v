(** Vocabulary of C81: what accounts list, and what is recorded as verified. *)
From Verif Require Import Base PyStr Env Prog Chain Gpg Mime States Account Cmdline Bot Fs Api Spec.

(** the verification of address [x] in account [a] that a call asks to record *)
Definition recorded (a x : text) (c : api) : option verif_entry :=
  match c with
  | AVerifySelf n y key => if text_eqb n a && text_eqb y x then Some (VerifEntry x key (L "self")) else None
  | AVerifyPeer n y key => if text_eqb n a && text_eqb y x then Some (VerifEntry x key (L "peer")) else None
  | _ => None
  end.
(** the newest verification recorded by calls that succeeded, since everything was last deleted *)
Fixpoint last_verified (a x : text) (h : list (api * result outcome)) (e : option verif_entry) : option verif_entry :=
  match h with
  | [] => e
  | (c, r) :: h' =>
    last_verified a x h'
      (if is_ok r then
         if deletes_all c then None else match recorded a x c with Some e' => Some e' | None => e end
       else e)
  end.

(** something was received from, or about, this peer *)
Definition heard_of (v : peer_view) : Prop :=
  (0 < pv_last_seen v)%Z \/ pv_latest_ac v <> None \/ pv_latest_gossip v <> None.
