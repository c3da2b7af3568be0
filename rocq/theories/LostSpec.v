(** Vocabulary for C90: a key that is recorded although gpg does not take it. *)
From Verif Require Import Base PyStr Env Prog Chain Gpg Mime States Recommendation Account Cmdline Bot Fs Api Spec PeerSpec.

Section LostSpec.
Context {E : Env}.

(** the gpg program of account [a] fails to import the key, in some state of its keyring *)
Definition refused (a : text) (key : bytes) : Prop :=
  exists s g s', snd (arun (get_bingpg a) s) = Ok g /\ snd (arun (import_keydata g key false) s') = Err InvocationFailure.

(** the result of processing a mail says so *)
Definition told_refused (s : ast) (c : api) : Prop :=
  forall i, answer s c = Ok (OIncoming (Some i)) -> p_error (in_pah i) = Some (L "failed to import key").

End LostSpec.
