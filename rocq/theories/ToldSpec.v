(** Vocabulary of the properties about the gpg processes behind the recorded key handles (C97). *)
From Verif Require Import Base PyStr Env Prog Chain Gpg Mime States Recommendation Account Cmdline Bot Fs Api Spec PeerSpec OutSpec AcctSpec CliSpec TalkSpec GpgSpec KeySpec FailSpec.

Section ToldSpec.
Context {E : Env}.

(** a process started for the account [a] with the program [p] in the given gpg mode *)
Definition for_account (p mode a : text) (args : list text) (inp : option bytes) (res : gres) : gcall * gres :=
  (GCall (ring_of_mode a mode) (start_of p mode a ++ args) inp None, res).
(** The key handle that the messages [err] name, when these processes followed: a long key id
    itself, otherwise what the next process found in the listing of the key ring. *)
Definition named_then (p mode a : text) (err : text) (post : list (gcall * gres)) (kh : text) : Prop :=
  exists x, first_mention err x /\
    (((8 < length x)%nat /\ kh = x) \/
     ((length x <= 8)%nat /\ exists res out us post',
        post = for_account p mode a [L "--skip-verify"; L "--with-colons"; L "--list-public-keys"; x] None res :: post' /\
        g_ret res = 0%Z /\ utf8 (g_out res) = Some out /\
        first_such (fun k => same_key_id (fst k) x) (keys_in (L "pub") (L "sub") out) (kh, us))).
(** Among the processes [l] there is one that imported [data] and reported the key [kh];
    [post] followed it. *)
Definition imported_in (l : list (gcall * gres)) (p mode a : text) (data : bytes) (kh : text) (post : list (gcall * gres)) : Prop :=
  exists pre res err, l = pre ++ for_account p mode a [L "--skip-verify"; L "--import"] (Some data) res :: post /\
    g_ret res = 0%Z /\ utf8 (g_err res) = Some err /\ named_then p mode a err post kh.
(** The key [kd] with the handle [kh] is the key that was imported, or what was exported under
    this handle afterwards, by the gpg program of the configuration [c]. *)
Definition told_in (l : list (gcall * gres)) (c : cfg_entry) (a : text) (kd : bytes) (kh : text) : Prop :=
  exists p data post, located (cf_bin c) p /\ imported_in l p (cf_mode c) a data kh post /\
    (data = kd \/ exists res, In (for_account p (cf_mode c) a [L "--export-options=export-minimal"; L "--export"; kh] None res) post /\
                    g_ret res = 0%Z /\ g_err res = [] /\ g_out res = kd).
End ToldSpec.
