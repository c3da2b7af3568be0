(** Vocabulary of C86: the same program, getting an account anew for every call. *)
From Verif Require Import Base PyStr Env Prog Chain Gpg Mime States Account Api Spec AcctSpec Live.

Section LiveSpec.
Context {E : Env}.

(** the program and the mode of gpg that an account has in its settings *)
Definition gpg_setting (s : ast) (a : text) : option (text * text) :=
  match own_of s a with Some (c, _) => Some (cf_bin c, cf_mode c) | None => None end.

(** a method of an account that is got for this call *)
Definition as_call (a : text) (m : method) : api :=
  match m with
  | MIncoming m ign nodec => AIncoming a m ign nodec
  | MOutgoing m => AOutgoing a m
  | MEncrypt m to => AEncrypt a m to
  | MDecrypt m => ADecrypt a m
  | MRecommend addrs reply => ARecommend a addrs reply
  | MHeader adr => AHeader a adr
  | MExportPub kh => AExportPub a kh
  | MExportSec => AExportSec a
  | MImport addr kd pref => AImport a addr kd pref
  | MPeer addr => APeer a addr
  | MPeers => APeers a
  | MOwn => AOwn a
  | MModify regex kh bin pref => AMod a regex kh bin pref
  | MDelete => ADel a
  end.

(** instead of an object: the name of the account, and the settings of gpg at that time *)
Definition held : Type := text * option (text * text).
Definition fresh_step (k : lcall) (hs : list held) (s : ast) : list held * ast * result outcome :=
  match k with
  | KGet n => let (s', r) := arun (get_account n true) s in
      (match r with Ok a => hs ++ [(a, gpg_setting s' a)] | Err _ => hs end, s', match r with Ok a => Ok (OText a) | Err e => Err e end)
  | KAdd n regex kh bin mode => let (s', r) := arun (exec (AAdd n regex kh bin mode)) s in
      (match r with Ok _ => hs ++ [(n, gpg_setting s' n)] | Err _ => hs end, s', r)
  | KCall i m => match nth_error hs i with
      | None => (hs, s, Err AttributeError)
      | Some (a, _) => let (s', r) := arun (exec (as_call a m)) s in (hs, s', r)
      end
  | KOther c => let (s', r) := arun (exec c) s in (hs, s', r)
  end.
Fixpoint fresh_run (ks : list lcall) (hs : list held) (s : ast) : list held * ast * list (result outcome) :=
  match ks with
  | [] => (hs, s, [])
  | k :: ks' => let '(hs1, s1, x) := fresh_step k hs s in
                let '(hs2, s2, xs) := fresh_run ks' hs1 s1 in (hs2, s2, x :: xs)
  end.

(** Whenever a method is called, the account exists and has the settings of gpg that it had when
    the object was made. *)
Fixpoint settings_kept (ks : list lcall) (hs : list held) (s : ast) : Prop :=
  match ks with
  | [] => True
  | k :: ks' =>
    match k with
    | KCall i _ => match nth_error hs i with Some (a, st) => has_account s a /\ gpg_setting s a = st | None => True end
    | _ => True
    end /\ let '(hs1, s1, _) := fresh_step k hs s in settings_kept ks' hs1 s1
  end.

(** a step that neither modifies nor deletes an account *)
Definition careful (k : lcall) : Prop :=
  match k with
  | KCall _ (MModify _ _ _ _) | KCall _ MDelete => False
  | KOther c => forall a, deletes a c = false /\ modifies a c = false
  | _ => True
  end.
End LiveSpec.
