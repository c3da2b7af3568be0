(** A recommendation as an object that is kept: made at one time, asked at others. *)
From Verif Require Import Base PyStr Env Prog Chain Mime States Recommendation Account.

Section RecObj.
Context {E : Env}.

(** recommendation.py:7-10 Recommendation: it keeps the own preference as a text, and of the
    peers only the objects that read their logs. *)
Record rec_obj := RecObj { ro_peers : dict text; ro_pref : text; ro_reply : bool }.

(** account.py:213-218 get_recommendation *)
Definition get_recommendation (acct : text) (addrs : list (option text)) (reply_to_enc : bool) (from : option text) : prog cop rec_obj :=
  c <- own_config acct ;; Ret (RecObj (rec_peers acct addrs from) (cf_pref c) reply_to_enc).

(** recommendation.py:12-25,32-34 ui_recommendation *)
Definition ro_ui (o : rec_obj) : prog cop (option text) := ui_recommendation (ro_pref o) (ro_reply o) (map snd (ro_peers o)).
(** recommendation.py:27-30,58-59 target_keyhandles *)
Definition ro_handles (o : rec_obj) : prog cop (list (text * text)) := target_keyhandles (ro_peers o).

End RecObj.
