(** Vocabulary of the properties about the keys that accounts and peers get (C72 to C74). *)
From Verif Require Import Base PyStr Env Prog Chain Gpg Mime States Recommendation Account Cmdline Bot Fs Api Spec OutSpec AcctSpec CliSpec GpgSpec.

(** ** Key listings *)
(** a line of a listing, where primary keys and subkeys are marked by the given words *)
Definition line_record (prim sub line : text) : record :=
  let field i := nth i (split_on 58 line) [] in
  if text_eqb (field 0) prim then RPub (field 4) (field 9)
  else if text_eqb (field 0) sub then RSub (field 4) (field 9)
  else if text_eqb (field 0) (L "uid") then RUid (field 9)
  else ROther.
(** the keys with their user ids *)
Fixpoint listed_keys (rs : list record) : list (text * list text) :=
  match rs with
  | RPub i u :: rs' => (i, given u ++ until_pub rs') :: listed_keys rs'
  | RSub i u :: rs' => (i, given u) :: listed_keys rs'
  | _ :: rs' => listed_keys rs'
  | [] => []
  end.
Definition keys_in (prim sub out : text) : list (text * list text) := listed_keys (map (line_record prim sub) (splitlines out)).

(** the first one with a property *)
Definition first_such {A} (P : A -> Prop) (l : list A) (a : A) : Prop :=
  exists l1 l2, l = l1 ++ a :: l2 /\ P a /\ Forall (fun b => ~ P b) l1.

(** ** Keys named in what gpg writes to stderr: "key ID 1234ABCD" or "key 1234ABCD" *)
Definition mention (t x : text) : Prop :=
  exists id rest, (id = [] \/ id = L "ID ") /\ t = L "key " ++ id ++ x ++ rest /\ all_of hex_cp x /\
    (forall c r, rest = c :: r -> hex_cp c = false).
Definition first_mention (err x : text) : Prop :=
  exists pre t, err = pre ++ t /\ mention t x /\ (forall pre' t' x', err = pre' ++ t' -> mention t' x' -> (length pre <= length pre')%nat).

Section KeySpec.
Context {E : Env}.
(** the end of [a] is [b], apart from the case of letters *)
Definition ends_like (a b : text) : Prop :=
  b <> [] /\ exists x t, a = x ++ t /\ length t = length b /\ lower t = lower b.
Definition same_key_id (id h : text) : Prop := ends_like id h \/ ends_like h id \/ ((id = [] \/ h = []) /\ lower id = lower h).
(** a user id contains [h], or [h] is the key's id or its end *)
Definition named_by (h : text) (k : text * list text) : Prop :=
  (exists u x y, In u (snd k) /\ u = x ++ h ++ y) \/ same_key_id (fst k) h.

(** the key that gpg reports on stderr; if the id has eight digits or less, the long id is
    looked up in a listing made by [gpg r (start ++ ...)] *)
Definition reported (r : ring) (start : list text) (err kh : text) : Prop :=
  exists x, first_mention err x /\
    (((8 < length x)%nat /\ kh = x) \/
     ((length x <= 8)%nat /\ exists out us,
        utf8 (g_out (snd (gpg r (start ++ [L "--skip-verify"; L "--with-colons"; L "--list-public-keys"; x]) None None))) = Some out /\
        first_such (fun k => same_key_id (fst k) x) (keys_in (L "pub") (L "sub") out) (kh, us))).

(** what a call that creates an account is given: name, gpg mode, program, key *)
Definition creates_with (c : api) (n mode bin : text) (kh : option text) : Prop :=
  match c with
  | AAdd n' _ kh' bin' mode' => n' = n /\ mode' = mode /\ bin' = bin /\ kh' = kh
  | ACliAdd n' sys kh' bin' _ => n' = n /\ (if sys then L "system" else L "own") = mode /\ bin' = bin /\ kh' = kh
  | _ => False
  end.
(** how commands for an account begin *)
Definition start_of (p mode n : text) : list text :=
  [p; L "--batch"] ++ (if text_eqb mode (L "own") then [L "--homedir"; basedir ++ L "/gpg/" ++ n] else []).
Definition ring_used (s : ast) (mode n : text) : ring :=
  ring_content s (if text_eqb mode (L "own") then basedir ++ L "/gpg/" ++ n else []).
End KeySpec.
