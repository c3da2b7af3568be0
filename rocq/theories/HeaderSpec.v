(** What an Autocrypt header value says: vocabulary for C24-C28, independent of how mime.py
    takes a value apart. *)
From Verif Require Import Base PyStr Base64 Env Mime Spec.

Definition blank (w : text) : Prop := forall c, In c w -> is_space c = true.
(** begins and ends with a character that is not white space, or is empty *)
Definition trimmed (s : text) : Prop :=
  (forall c r, s = c :: r -> is_space c = false) /\ (forall c r, s = r ++ [c] -> is_space c = false).

(** The text between two semicolons, for the attribute (name, value). *)
Definition segment_of (seg name value : text) : Prop :=
  exists w1 w2 w3 w4, seg = w1 ++ name ++ w2 ++ L "=" ++ w3 ++ value ++ w4 /\
    blank w1 /\ blank w2 /\ blank w3 /\ blank w4 /\
    name <> [] /\ trimmed name /\ trimmed value /\
    ~ In 61%N name /\ ~ In 59%N name /\ ~ In 59%N value.

Inductive segments : list text -> list (text * text) -> Prop :=
| seg_nil : segments [] []
| seg_blank w segs attrs : blank w -> segments segs attrs -> segments (w :: segs) attrs
| seg_attr seg n v segs attrs : segment_of seg n v -> segments segs attrs -> segments (seg :: segs) ((n, v) :: attrs).

(** The header value [v] lists the attributes [attrs], in this order. *)
Definition lists_attrs (v : text) (attrs : list (text * text)) : Prop :=
  exists segs, segments segs attrs /\ v = join (L ";") segs.

Definition no_spaces (s : text) : text := filter (fun c => negb (is_space c)) s.

(** attributes that do not make a header invalid *)
Definition acceptable (a : text * text) : Prop :=
  (fst a = L "keydata" /\ exists b, b64decode (no_spaces (snd a)) = Ok b) \/
  (fst a = L "prefer-encrypt" /\ (snd a = L "nopreference" \/ snd a = L "mutual")) \/
  fst a = L "addr" \/
  (exists r, fst a = L "_" ++ r).

(** the value of the last attribute of that name *)
Fixpoint last_value (n : text) (attrs : list (text * text)) : option text :=
  match attrs with
  | [] => None
  | (k, v) :: attrs' =>
    match last_value n attrs' with
    | Some w => Some w
    | None => if text_eqb k n then Some v else None
    end
  end.

Section HeaderSpec.
Context {E : Env}.

(** the header value [v] is not accepted *)
Definition rejected (v : text) : Prop := exists p, parse_ac_headervalue v = Ok p /\ has_error p = true.
(** the header value is accepted and states address, key, preference and further attributes *)
Definition states (v addr : text) (key : bytes) (pref : text) (extra : text -> option text) : Prop :=
  exists p ex, parse_ac_headervalue v = Ok p /\ has_error p = false /\
    p_addr p = Some addr /\ p_keydata p = Some key /\ p_pref p = Some pref /\
    p_extra p = Some ex /\ forall n, dget ex n = extra n.

(** What a header with these attributes should mean. *)
Definition valid_attrs (attrs : list (text * text)) : Prop :=
  Forall acceptable attrs /\ last_value (L "keydata") attrs <> None /\ last_value (L "addr") attrs <> None.

Definition pref_stated (attrs : list (text * text)) : text :=
  match last_value (L "prefer-encrypt") attrs with Some v => v | None => L "nopreference" end.
Definition underscored (attrs : list (text * text)) (n : text) : option text :=
  if startswith (L "_") n then last_value n attrs else None.

End HeaderSpec.
