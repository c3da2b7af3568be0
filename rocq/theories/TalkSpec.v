(** Vocabulary of the properties of conversations, C64 and following. *)
From Verif Require Import Base PyStr Env Prog Chain Gpg Mime States Recommendation Account Cmdline Bot Fs Api Spec PeerSpec RecSpec OutSpec CliSpec.

Section TalkSpec.
Context {E : Env}.

(** what transport has to leave alone: sender, key, date and kind of mail; it may add anything *)
Definition delivered (sent received : msg) : Prop :=
  hget_all received (L "From") = hget_all sent (L "From") /\
  hget_all received (L "Autocrypt") = hget_all sent (L "Autocrypt") /\
  hget received (L "Date") = hget sent (L "Date") /\
  get_content_type received = get_content_type sent.

(** an address that survives being written into a header and read back, see C24 *)
Definition plain_address (x : text) : Prop := ~ In 59%N x /\ norm (strip x) = x.

(** The account knows this key of [x], with this preference, from a mail of that date, and no
    later mail. *)
Definition knows (s : ast) (a x : text) (key : bytes) (kh pref : text) (date : Z) : Prop :=
  exists v, peer_of s a x = Some v /\ pv_keydata v = key /\ pv_keyhandle v = kh /\ pv_pref v = pref /\ pv_direct v = true /\
    pv_ac_timestamp v = date /\ pv_last_seen v = date.

(** ** What gpg is asked to do *)
Inductive kind := KListSecret | KListPublic | KGenerate | KExport | KExportSecret | KEncrypt | KDecrypt | KImport | KDelete.
Inductive of_kind : kind -> list text -> Prop :=
| k_list_secret kh : of_kind KListSecret [L "--skip-verify"; L "--with-colons"; L "--list-secret-keys"; kh]
| k_list_public kh : of_kind KListPublic [L "--skip-verify"; L "--with-colons"; L "--list-public-keys"; kh]
| k_generate pass f : pass_args pass -> of_kind KGenerate (pass ++ [L "--gen-key"; f])
| k_export (armor : bool) kh : of_kind KExport ((if armor then [L "-a"] else []) ++ [L "--export-options=export-minimal"; L "--export"; kh])
| k_export_secret (armor : bool) pass kh : pass_args pass ->
    of_kind KExportSecret ((if armor then [L "-a"] else []) ++ pass ++ [L "--export-options=export-minimal"; L "--export-secret-key"; kh])
| k_encrypt pass args : pass_args pass -> of_kind KEncrypt (pass ++ L "--encrypt" :: args)
| k_decrypt pass : pass_args pass -> of_kind KDecrypt (pass ++ [L "--with-colons"; L "--decrypt"])
| k_import : of_kind KImport [L "--skip-verify"; L "--import"]
| k_delete kh : of_kind KDelete [L "--yes"; L "--delete-key"; kh].
Definition asks (g : gcall) (k : kind) : Prop :=
  exists path home args, gc_argv g = [path; L "--batch"] ++ home ++ args /\ home_args home /\ of_kind k args.

(** what each call may ask gpg for *)
Definition for_status : list kind := [KListPublic].
Definition for_adding (key : option text) : list kind :=
  match key with None => [KGenerate; KListPublic; KExportSecret] | Some _ => [KListSecret; KExportSecret] end.
Definition for_incoming (nodec : bool) : list kind := [KImport; KListPublic] ++ (if nodec then [] else [KDecrypt]).
Definition for_outgoing : list kind := [KExport; KEncrypt].
Definition may_ask (c : api) : list kind :=
  match c with
  | AAdd _ _ kh _ _ => for_adding kh
  | ACliAdd _ _ kh _ _ => for_adding kh ++ for_status
  | ACliMod _ _ _ _ _ | ACliDel _ | ACliStatus _ => for_status
  | AIncoming _ _ _ nd | ACliIncoming _ _ nd _ => for_incoming nd
  | ACliScandir _ _ => for_incoming false
  | AOutgoing _ _ | ACliOutgoing _ => for_outgoing
  | AEncrypt _ _ _ => [KEncrypt]
  | ADecrypt _ _ => [KDecrypt]
  | AHeader _ _ | AExportPub _ _ => [KExport]
  | AExportSec _ => [KExportSecret]
  | AImport _ _ _ _ => [KImport; KListPublic; KExport; KDelete]
  | ABot _ _ _ => for_incoming false ++ for_outgoing
  | AMod _ _ _ _ _ | ADel _ | AFind _ _ | AList | ARoute _ | ARemove | ARecommend _ _ _ | APeer _ _ | APeers _ | AOwn _
  | AVerifySelf _ _ _ | AVerifyPeer _ _ _ | AGetVerif _ _ | ACliDestroy _ | ACliPeerstate _ _ => []
  end.

End TalkSpec.
