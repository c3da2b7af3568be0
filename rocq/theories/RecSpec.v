(** What the Autocrypt rules recommend, as a table on what is reported about a peer. *)
From Verif Require Import Base PyStr Env Prog Chain Gpg Mime States Recommendation Account Cmdline Bot Fs Api Spec.

Definition days35 : Z := (35 * 24 * 60 * 60 * sec)%Z.
Definition mutual : text := L "mutual".

(** the last mail seen is the newest one with a key *)
Definition up_to_date (v : peer_view) : bool := Z.eqb (pv_last_seen v) (pv_ac_timestamp v).

Definition advice (own_pref : text) (reply : bool) (v : peer_view) : text :=
  if text_eqb (pv_keyhandle v) [] then L "disable"
  else if reply then L "encrypt"
  else if negb (pv_direct v) then L "discourage"
  else if Z.ltb days35 (pv_last_seen v - pv_ac_timestamp v) then L "discourage"
  else if text_eqb own_pref mutual && text_eqb (pv_pref v) mutual && up_to_date v then L "encrypt"
  else L "available".

(** from most to least cautious *)
Inductive rank : text -> nat -> Prop :=
| rk_disable : rank (L "disable") 0
| rk_discourage : rank (L "discourage") 1
| rk_available : rank (L "available") 2
| rk_encrypt : rank (L "encrypt") 3.

Section RecSpec.
Context {E : Env}.

(** the answer to "get_recommendation(xs, reply).ui_recommendation()" *)
Definition recommended (s : ast) (a : text) (xs : list text) (reply : bool) (r : text) : Prop :=
  answer s (ARecommend a xs reply) = Ok (OOptText (Some r)).
End RecSpec.
