(** Vocabulary of C94: mails that arrive as they were written. *)
From Verif Require Import Base PyStr Env Prog Chain Gpg Mime States Account Fs Api Spec PeerSpec EmailText.

Section EmailSpec.
Context {E : Env} {EL : EmailLib}.

(** [q]: a mail as it is written before encryption; otherwise as it is sent *)
(** ASCII, or a byte of the original that is none *)
Definition sendable (c : N) : Prop := (c < 128 \/ 56448 <= c <= 56575)%N.
(** a character that can be encoded *)
Definition proper (c : N) : Prop := (c < 55296 \/ 57343 < c)%N.
Definition line_in (t l : text) : Prop := In l (split_on 10 t).
Definition from_line (l : text) : Prop := exists r, l = L "From " ++ r.
Definition letter_text (q : bool) (t : text) : Prop :=
  Forall (if q then sendable else proper) t /\ ~ In 13%N t /\ (q = true -> forall l, line_in t l -> ~ from_line l).

(** Header fields that fit into their lines; [q]: of 78 characters *)
Definition visible (l : text) : Prop := Forall (fun c => 32 <= c <= 126)%N l /\ (forall l', l <> l' ++ [32%N]).
Definition one_word (l : text) : Prop := exists k w, l = repeat 32%N k ++ w /\ ~ In 32%N w.
Definition plain_field (q : bool) (f : text * text) : Prop :=
  fst f <> [] /\ Forall (fun c => 33 <= c <= 126 /\ c <> 58)%N (fst f) /\
  exists l ls, snd f = join [10%N] (l :: ls) /\
    visible l /\ (forall l', l <> 32%N :: l') /\ (q = true -> (length (fst f) + 2 + length l <= 78)%nat) /\
    Forall (fun l => visible l /\ (exists l', l = 32%N :: l') /\ (q = true -> (length l <= 78)%nat \/ one_word l)) ls.

(** Content types *)
Definition text_type (h : list (text * text)) : Prop :=
  forall r, get_content_type (Msg h PNone) <> L "multipart/" ++ r /\ get_content_type (Msg h PNone) <> L "message/" ++ r.
Definition parts_type (h : list (text * text)) (b : text) : Prop :=
  (exists r, get_content_type (Msg h PNone) = L "multipart/" ++ r /\ r <> L "digest") /\
  (exists v, hget (Msg h PNone) (L "content-type") = Some v /\ boundary_of v = Some b) /\
  b <> [] /\ Forall (fun c => c < 128 /\ c <> 10 /\ c <> 13)%N b.
(** the lines between the parts of a mail *)
Definition delimiter (b l : text) : Prop :=
  exists w, (l = L "--" ++ b ++ w \/ l = L "--" ++ b ++ L "--" ++ w) /\ Forall (fun c => c = 32 \/ c = 9)%N w.
Definition apart (q : bool) (b : text) (p : msg) : Prop :=
  forall t l, mail_text q (negb q) p = Ok t -> line_in t l -> ~ delimiter b l.

(** Ordinary mails, with any number of nested parts *)
Fixpoint ordinary (q : bool) (m : msg) : Prop :=
  match m with
  | Msg h body =>
    Forall (plain_field q) h /\
    match body with
    | PStr t => text_type h /\ letter_text q t
    | PParts ps => ps <> [] /\ exists b, parts_type h b /\
        (fix all (ps : list msg) : Prop := match ps with [] => True | p :: ps' => (ordinary q p /\ apart q b p) /\ all ps' end) ps
    | PNone | PBytes _ => False
    end
  end.
(** an address that fits into the line of a header field with its key *)
Definition short_addr (a : text) : Prop := Forall (fun c => 33 <= c <= 126)%N a /\ (length a <= 45)%nat.
Definition writable_peer (x : text) : Prop := short_addr (norm (norm x)).
(** the environment writes and reads mails as Python does *)
Definition python_mail : Prop := (forall m, flatten m = mail_bytes m) /\ (forall b, parse_bytes b = mail_read b).
End EmailSpec.
