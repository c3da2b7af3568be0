(** /repo/muacrypt/recommendation.py *)
From Verif Require Import Base PyStr Env Prog Chain Mime States.

Section Recommendation.
Context {E : Env}.

(** recommendation.py:67 *)
Definition timeout : Z := (35 * 24 * 60 * 60 * sec)%Z.

(** recommendation.py:61-71 _preliminary_recommendation, on the chain of the peer *)
Definition preliminary (l : list block) : text :=
  if negb (nonempty (public_keyhandle l)) then L "disable"
  else if negb (has_direct_key l) then L "discourage"
  else if Z.ltb timeout (last_seen l - autocrypt_timestamp l) then L "discourage"
  else L "available".

(** recommendation.py:45-56 PeerRecommendation.ui_recommendation *)
Definition peer_recommendation (own_pref : text) (reply_to_enc : bool) (l : list block) : result text :=
  let pre := preliminary l in
  if (text_eqb pre (L "available") || text_eqb pre (L "discourage")) && reply_to_enc then Ok (L "encrypt")
  else if text_eqb pre (L "available") && text_eqb own_pref (L "mutual")
          && text_eqb (peer_prefer_encrypt l) (L "mutual") then
    match latest_msg_entry l with
    | None => Err AttributeError
    | Some e => if nonempty (me_keydata e) then Ok (L "encrypt") else Ok pre
    end
  else Ok pre.

(** recommendation.py:12-25 Recommendation.ui_recommendation on the list of per-peer
    results; [None] is Python's None *)
Definition aggregate (own_pref : text) (recs : list text) : result (option text) :=
  match recs with
  | [] =>
    if text_eqb own_pref (L "mutual") then Ok (Some (L "encrypt"))
    else if text_eqb own_pref (L "nopreference") then Ok (Some (L "available"))
    else Err AssertionError
  | _ => Ok (find (fun r => mem_text r recs) [L "disable"; L "discourage"; L "available"; L "encrypt"])
  end.

Definition ui_recommendation (own_pref : text) (reply_to_enc : bool) (chains : list text) : prog cop (option text) :=
  recs <- mapM (fun c => l <- perform (CRead c) ;; lift (peer_recommendation own_pref reply_to_enc l)) chains ;;
  lift (aggregate own_pref recs).

(** recommendation.py:27-30 target_keyhandles *)
Definition target_keyhandles (peers : dict text) : prog cop (list (text * text)) :=
  mapM (fun '(addr, c) => l <- perform (CRead c) ;; Ret (addr, public_keyhandle l)) peers.

End Recommendation.
