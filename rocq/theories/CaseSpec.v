(** Vocabulary of the properties about capital letters (C75). *)
From Verif Require Import Base PyStr Env Prog Chain Gpg Mime States Recommendation Account Cmdline Bot Fs Api Spec.

(** The same letter, perhaps capitalized *)
Definition same_letter (c d : N) : Prop :=
  c = d \/ exists k, (k < 26)%N /\ (c = 65 + k /\ d = 97 + k \/ c = 97 + k /\ d = 65 + k)%N.
Definition ascii (t : text) : Prop := Forall (fun c => (c < 128)%N) t.
(** ASCII texts that differ only in capitalization *)
Definition same_case (x y : text) : Prop := ascii x /\ ascii y /\ Forall2 same_letter x y.

(** The same mail, but for the capitalization of the names of header fields, also in its parts *)
Definition same_header (h h' : text * text) : Prop := (fst h = fst h' \/ same_case (fst h) (fst h')) /\ snd h = snd h'.
Inductive same_mail : msg -> msg -> Prop :=
| sm h h' b b' : Forall2 same_header h h' -> same_body b b' -> same_mail (Msg h b) (Msg h' b')
with same_body : payload -> payload -> Prop :=
| sb_same b : same_body b b
| sb_parts l l' : Forall2 same_mail l l' -> same_body (PParts l) (PParts l').

(** The same call, but for the capitalization of header names in incoming mail *)
Inductive same_call : api -> api -> Prop :=
| sc_incoming a m m' i n : same_mail m m' -> same_call (AIncoming a m i n) (AIncoming a m' i n)
| sc_cli a m m' r n : same_mail m m' -> same_call (ACliIncoming a r n m) (ACliIncoming a r n m')
| sc_scan r fs fs' : Forall2 (fun f f' => fst f = fst f' /\ same_mail (snd f) (snd f')) fs fs' -> same_call (ACliScandir r fs) (ACliScandir r fs')
| sc_route m m' : same_mail m m' -> same_call (ARoute m) (ARoute m')
| sc_bot fb body m m' : same_mail m m' -> same_call (ABot fb body m) (ABot fb body m').
