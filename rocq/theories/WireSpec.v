(** Vocabulary of C95: mails on their way from one machine to another. *)
From Verif Require Import Base PyStr Env Prog Chain Gpg Mime States Account Commands Fs Api Spec PeerSpec EmailText EmailSpec.

Section WireSpec.
Context {E : Env} {EL : EmailLib} {Sh : Shell}.

(** boundaries that Python makes *)
Definition python_boundary (b : text) : Prop :=
  exists ds, b = repeat 61%N 15 ++ ds ++ [61; 61]%N /\ Forall (fun c => 48 <= c <= 57)%N ds.
Definition sealed_type (b : text) : text := encrypted_ctype ++ L "; boundary=""" ++ b ++ L """".
(** mails are written by Python when they are sent, too *)
Definition python_wire : Prop :=
  (forall m, as_string m = mail_string m) /\ (forall ts, python_boundary (new_boundary ts)) /\
  boundary_of encrypted_ctype = None /\
  (forall b, python_boundary b -> with_boundary encrypted_ctype b = sealed_type b /\ boundary_of (sealed_type b) = Some b).
(** what gpg --armor puts out: ASCII, and no line that could be a boundary *)
Definition armored (enc : bytes) : Prop :=
  Forall (fun c => c < 128 /\ c <> 13)%N enc /\ (forall l r, line_in enc l -> l <> L "--=" ++ r).

(** the bytes that are sent for a mail; click.echo adds a line end *)
Definition on_the_wire (m : msg) (i : bytes) : Prop := exists t, as_string m = Ok t /\ to_utf8 t = Some i.
Definition received (i : bytes) (m : msg) : Prop := m = mail_read i \/ m = mail_read (i ++ [10%N]).
(** two mails that mean the same to whoever processes or decrypts them *)
Definition means_the_same (m m' : msg) : Prop :=
  (forall s a, answer s (ADecrypt a m') = answer s (ADecrypt a m) /\ after s (ADecrypt a m') = after s (ADecrypt a m)) /\
  (forall s a x y, answer s (AIncoming a m' x y) = answer s (AIncoming a m x y) /\ after s (AIncoming a m' x y) = after s (AIncoming a m x y)) /\
  (forall s n x y, answer s (ACliIncoming n x y m') = answer s (ACliIncoming n x y m) /\ after s (ACliIncoming n x y m') = after s (ACliIncoming n x y m)).
End WireSpec.
