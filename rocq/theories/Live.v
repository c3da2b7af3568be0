(** Account objects that a program keeps.  Account.bingpg is a cached property (account.py:271,
    bingpg.py:23-39): the wrapper for gpg is built when it is first needed and then stays with
    the object, whatever happens to the settings later.  Account.v builds it anew every time.
    Here the methods that use gpg are written once more with the cache; the others read
    everything from the directory and are taken from Account.v. *)
From Verif Require Import Base PyStr Env Prog Chain Gpg Mime States Recommendation Account Api.

(** what an object remembers: nothing yet, or its wrapper for gpg *)
Definition cache : Type := option bingpg.
(** a method: from the cache to the cache and a result; an exception does not undo the cache *)
Definition live (A : Type) : Type := cache -> prog cop (cache * result A).

Definition lret {A} (a : A) : live A := fun c => Ret (c, Ok a).
Definition lbind {A B} (p : live A) (f : A -> live B) : live B := fun c =>
  x <- p c ;; match x with (c1, Ok a) => f a c1 | (c1, Err e) => Ret (c1, Err e) end.
(** a part that does not look at the cache *)
Definition plain {A} (p : prog cop A) : live A := fun c =>
  r <- catch (a <- p ;; Ret (Ok a)) (fun e => Some (Ret (Err e))) ;; Ret (c, r).
Definition lcatch {A} (p : live A) (h : exn -> option (live A)) : live A := fun c =>
  x <- p c ;; match x with
              | (c1, Ok a) => Ret (c1, Ok a)
              | (c1, Err e) => match h e with Some q => q c1 | None => Ret (c1, Err e) end
              end.
Fixpoint lfold {A B} (f : B -> A -> live B) (l : list A) (b : B) : live B :=
  match l with [] => lret b | x :: l' => lbind (f b x) (fun b' => lfold f l' b') end.
Fixpoint lmap {A B} (f : A -> live B) (l : list A) : live (list B) :=
  match l with [] => lret [] | x :: l' => lbind (f x) (fun y => lbind (lmap f l') (fun ys => lret (y :: ys))) end.

Section Live.
Context {E : Env}.

(** account.py:271-283 with bingpg.py:23-39 *)
Definition bingpg_of (acct : text) : live bingpg := fun c =>
  match c with
  | Some g => Ret (c, Ok g)
  | None => r <- catch (g <- get_bingpg acct ;; Ret (Ok g)) (fun e => Some (Ret (Err e))) ;;
            Ret (match r with Ok g => Some g | Err _ => None end, r)
  end.

(** account.py:223-256 create *)
Definition live_create (acct : text) (regex : text) (kh : option text) (gpgbin gpgmode : text) : live unit :=
  lbind (plain (assert_ (mem_text gpgmode [L "own"; L "system"]))) (fun _ =>
  lbind (plain (new_config acct (CfgEntry (L "nopreference") acct regex gpgmode gpgbin))) (fun _ =>
  lbind (match kh with
         | None =>
           lbind (plain (perform CUuid)) (fun id =>
           lbind (bingpg_of acct) (fun g =>
           plain (gen_secret_key g (id ++ L "@random.muacrypt.org"))))
         | Some h =>
           lbind (bingpg_of acct) (fun g =>
           lbind (plain (get_secret_keyhandle g h)) (fun r =>
           match r with Some h' => lret h' | None => plain (Raise ValueError) end))
         end) (fun kh' =>
  lbind (bingpg_of acct) (fun g =>
  lbind (plain (get_secret_keydata g kh' false)) (fun keydata =>
  plain (append_keygen acct keydata kh')))))).

(** account.py:285-303 make_ac_header *)
Definition live_header (acct emailadr : text) : live text :=
  lbind (bingpg_of acct) (fun g =>
  lbind (plain (own_keyhandle acct)) (fun kh =>
  lbind (plain (get_public_keydata g kh false)) (fun kd =>
  lbind (plain (own_config acct)) (fun c =>
  plain (lift (make_ac_header_value emailadr kd (cf_pref c))))))).

(** account.py:309-319 export_public_key, export_secret_key *)
Definition live_export_public (acct : text) (kh : option text) : live bytes :=
  lbind (match kh with Some h => lret h | None => plain (own_keyhandle acct) end) (fun h =>
  lbind (bingpg_of acct) (fun g => plain (get_public_keydata g h true))).
Definition live_export_secret (acct : text) : live bytes :=
  lbind (bingpg_of acct) (fun g =>
  lbind (plain (own_keyhandle acct)) (fun kh => plain (get_secret_keydata g kh true))).

(** account.py:434-439 _import_key *)
Definition live_import_key (acct : text) (p : pah) : live (option text * pah) :=
  lbind (bingpg_of acct) (fun g =>
  match p_keydata p with
  | None => plain (Raise AssertionError)
  | Some kd =>
    lcatch (lbind (plain (import_keydata g kd false)) (fun kh => lret (Some kh, p)))
           (fun e => match e with
                     | InvocationFailure =>
                       Some (lret (None, PAH (p_keydata p) (p_addr p) (p_pref p) (p_extra p) (Some (L "failed to import key"))))
                     | _ => None
                     end)
  end).

(** account.py:358-371 process_autocrypt_header *)
Definition live_autocrypt_header (acct : text) (m : msg) (from chain : text) (date : Z) (id : text) : live pah :=
  lbind (plain (lift (parse_one_ac_header_from_msg m [from]))) (fun p =>
  lbind (if has_error p then lret (None, p) else live_import_key acct p) (fun x =>
  let '(kh, p') := x in
  lbind (plain (update_from_msg chain id date (p_pref p') (p_keydata p') kh)) (fun _ => lret p'))).

(** account.py:531-548 decrypt_mime *)
Definition live_decrypt (acct : text) (m : msg) : live (msg * list (text * text)) :=
  lbind (plain (lift (is_encrypted m))) (fun b =>
  lbind (plain (assert_ b)) (fun _ =>
  match m_body m with
  | PParts [_; p1] =>
    lbind (plain (match m_body p1 with
                  | PBytes s | PStr s => if is_ascii s then Ret s else Raise UnicodeError
                  | PNone | PParts _ => Raise AttributeError
                  end)) (fun enc_data =>
    lbind (bingpg_of acct) (fun g =>
    lbind (plain (gpg_decrypt g enc_data)) (fun x =>
    let '(dec, infos) := x in lret (transfer_non_content_headers m (parse_bytes dec), infos))))
  | _ => plain (Raise AssertionError)
  end)).

(** account.py:410-432 process_gossip_headers *)
Definition live_gossip_recipient (acct : text) (date : Z) (id : text)
  (st : dict pah * dict pah) (recipient : text) : live (dict pah * dict pah) :=
  let '(addr2pah, processed) := st in
  match dget addr2pah recipient with
  | None => lret st
  | Some p =>
    lbind (live_import_key acct p) (fun x =>
    let '(kh, p') := x in
    lbind (plain (update_from_msg_gossip (peerstate_chain acct recipient) id date (p_keydata p') kh)) (fun _ =>
    lret (dset addr2pah recipient p', dset processed recipient p')))
  end.
Definition live_gossip_headers (acct : text) (m : msg) (date : Z) (id : text) : live (dict pah) :=
  lbind (plain (lift (get_gossip_headers_from_msg m))) (fun addr2pah =>
  lbind (lfold (live_gossip_recipient acct date id) (get_target_emailadr m) (addr2pah, [])) (fun st => lret (snd st))).

(** account.py:321-356 process_incoming *)
Definition live_incoming (acct : text) (m : msg) (ignore_existing no_decrypt : bool) : live (option incoming) :=
  let from := parse_email_addr (hget m (L "From")) in
  let chain := peerstate_chain acct from in
  lbind (plain (lift (parse_date_to_float (hget m (L "Date"))))) (fun d =>
  lbind (plain (effective_date d)) (fun date =>
  let id := msg_id_text m in
  lbind (plain (perform (CRead chain))) (fun l =>
  if ignore_existing && has_message l id then lret None
  else
    lbind (live_autocrypt_header acct m from chain date id) (fun p =>
    lbind (if no_decrypt then lret false else plain (lift (is_encrypted m))) (fun enc =>
    lbind (if enc then
             lbind (live_decrypt acct m) (fun x =>
             let '(dec, _) := x in
             lbind (live_gossip_headers acct dec date id) (fun gp =>
             lbind (plain (own_keyhandle acct)) (fun _ => lret gp)))
           else lret []) (fun gossip =>
    lret (Some (Incoming id date chain acct p gossip)))))))).

(** account.py:373-408 import_keydata_as_autocrypt *)
Definition live_import (acct : text) (addr : option text) (keydata : bytes) (pref : text) : live import_result :=
  lbind (bingpg_of acct) (fun g =>
  lbind (plain (import_keydata g keydata false)) (fun kh =>
  lbind (match addr with
         | Some a => lret [parse_email_addr (Some a)]
         | None =>
           lbind (bingpg_of acct) (fun g =>
           lbind (plain (list_public_keyinfos g kh)) (fun l =>
           lret (match find (fun k => text_eqb (ki_id k) kh) l with
                 | Some k => map (fun u => parse_email_addr (Some u)) (ki_uids k)
                 | None => []
                 end)))
         end) (fun uid_addrs =>
  lbind (bingpg_of acct) (fun g =>
  lbind (plain (import_keydata g keydata true)) (fun kh =>
  lbind (lmap (fun a =>
           lbind (plain (perform CTime)) (fun now =>
           lbind (bingpg_of acct) (fun g =>
           lbind (plain (get_public_keydata g kh false)) (fun kd =>
           plain (update_from_msg (peerstate_chain acct a) [] now (Some pref) (Some kd) (Some kh))))))
         uid_addrs) (fun _ =>
  lbind (bingpg_of acct) (fun g =>
  lbind (plain (get_public_keydata g kh false)) (fun kd =>
  lret (ImportResult uid_addrs pref kh kd))))))))).

(** account.py:482-529 encrypt_mime *)
Definition live_encrypt (acct : text) (m : msg) (toaddrs : list text) : live (msg * list text) :=
  lbind (plain (assert_ (nonempty toaddrs))) (fun _ =>
  lbind (plain (foldM (encrypt_recipient acct) (map (fun t => parse_email_addr (Some t)) toaddrs)
                      ([], make_content_message_from_email m))) (fun x =>
  let '(khs, clear) := x in
  lbind (plain (own_keyhandle acct)) (fun own =>
  lbind (plain (lift (flatten clear))) (fun clear_data =>
  lbind (bingpg_of acct) (fun g =>
  lbind (plain (gpg_encrypt g clear_data khs own)) (fun enc_data =>
  let enc := make_message (L "application/pgp-encrypted") (PStr (L "version: 1")) in
  let data := make_message (L "application/octet-stream") (PBytes enc_data) in
  let newmsg := make_message encrypted_ctype (PParts [enc; data]) in
  lret (transfer_non_content_headers m newmsg, khs))))))).

(** account.py:441-480 process_outgoing *)
Definition live_outgoing (acct : text) (m : msg) : live outgoing :=
  lbind (plain (match hget m (L "ENCRYPT") with
                | Some h =>
                  assert_ (mem_text (strip h) [L "opportunistic"; L "yes"; L "no"]) ;;;
                  Ret (Some (strip h), hdel m (L "ENCRYPT"))
                | None => Ret (None, m)
                end)) (fun x =>
  let '(enc_header, m) := x in
  let addr := parse_email_addr (hget m (L "From")) in
  lbind (if hin m (L "Autocrypt") then lret (None, m)
         else lbind (live_header acct addr) (fun v => lret (Some v, hadd m (L "Autocrypt") v))) (fun x =>
  let '(added, m) := x in
  lbind (plain (lift (is_encrypted m))) (fun b =>
  lbind (if b then lret m
         else
           let recipients := get_target_emailadr m in
           match hget_all m (L "From") with
           | [f] =>
             let from_addr := parse_email_addr (Some f) in
             lbind (plain (recommend acct (map Some recipients) false (Some from_addr))) (fun rec =>
             let recipients := if mem_text from_addr recipients then recipients
                               else recipients ++ [from_addr] in
             if otext_eqb enc_header (Some (L "no")) then lret m
             else if otext_eqb rec (Some (L "encrypt"))
                     || (negb (otext_eqb rec (Some (L "disable"))) && otext_eqb enc_header (Some (L "yes")))
             then lbind (live_encrypt acct m recipients) (fun x => lret (fst x))
             else if otext_eqb enc_header (Some (L "yes")) then plain (Raise ValueError)
             else lret m)
           | _ => plain (Raise AssertionError)
           end) (fun m =>
  lret (Outgoing m acct addr added (hget m (L "Autocrypt"))))))).

(** ** A program that keeps objects *)
(** the public methods of an Account *)
Inductive method :=
| MIncoming (m : msg) (ignore_existing no_decrypt : bool)
| MOutgoing (m : msg)
| MEncrypt (m : msg) (toaddrs : list text)
| MDecrypt (m : msg)
| MRecommend (addrs : list text) (reply_to_enc : bool)
| MHeader (emailadr : text)
| MExportPub (kh : option text)
| MExportSec
| MImport (addr : option text) (keydata : bytes) (pref : text)
| MPeer (addr : text)
| MPeers
| MOwn
| MModify (regex kh gpgbin pref : option text)
| MDelete.

Definition call_method (acct : text) (m : method) : live outcome :=
  match m with
  | MIncoming m ign nodec => lbind (live_incoming acct m ign nodec) (fun i => lret (OIncoming i))
  | MOutgoing m => lbind (live_outgoing acct m) (fun o => lret (OOutgoing o))
  | MEncrypt m to => lbind (live_encrypt acct m to) (fun x => let '(em, khs) := x in lret (OEncrypted em khs))
  | MDecrypt m => lbind (live_decrypt acct m) (fun x => let '(dm, infos) := x in lret (ODecrypted dm infos))
  | MRecommend addrs reply => lbind (plain (recommend acct (map Some addrs) reply None)) (fun r => lret (OOptText r))
  | MHeader adr => lbind (live_header acct adr) (fun h => lret (OText h))
  | MExportPub kh => lbind (live_export_public acct kh) (fun b => lret (OBytes b))
  | MExportSec => lbind (live_export_secret acct) (fun b => lret (OBytes b))
  | MImport addr kd pref => lbind (live_import acct addr kd pref) (fun r => lret (OImport r))
  | MPeer addr => let chain := peerstate_chain acct addr in
      lbind (plain (perform (CRead chain))) (fun l => lret (OPeer (view_of chain l)))
  | MPeers => lbind (plain (get_peername_list acct)) (fun l => lret (OTexts l))
  | MOwn => lbind (plain (own_config acct)) (fun c => lbind (plain (own_keyhandle acct)) (fun kh => lret (OOwn c kh)))
  (* account.py:258-266: the keyhandle argument is accepted and ignored *)
  | MModify regex kh bin pref => lbind (plain (change_config acct pref regex bin)) (fun ch => lret (OMod ch acct))
  (* account.py:268-269 *)
  | MDelete => lbind (plain (remove_account acct)) (fun _ => lret ONone)
  end.

(** What a program does: get an account and keep the object, add an account and keep the object
    returned (account.py:112-132), call a method of the object number [i], or anything else, by
    itself or by another process. *)
Inductive lcall :=
| KGet (name : text)
| KAdd (name : text) (regex kh : option text) (gpgbin gpgmode : text)
| KCall (i : nat) (m : method)
| KOther (c : api).

Record obj := Obj { o_acct : text; o_cache : cache }.
Fixpoint set_nth {A} (i : nat) (x : A) (l : list A) : list A :=
  match i, l with
  | _, [] => []
  | O, _ :: l' => x :: l'
  | S j, y :: l' => y :: set_nth j x l'
  end.

Definition live_add (name : text) (regex kh : option text) (gpgbin gpgmode : text) : live text :=
  lbind (plain (get_account name false)) (fun a =>
  lbind (plain (account_exists a)) (fun ex =>
  if ex then plain (Raise AccountExists)
  else lbind (live_create a (match regex with Some r => r | None => L ".*" end) kh gpgbin gpgmode) (fun _ => lret a))).

(** the result of a method call at the top level *)
Definition flat {A} (r : result (cache * result A)) : cache * result A :=
  match r with Ok x => x | Err e => (None, Err e) end.

(** one step: the objects, the state of the directory, and the answer *)
Definition live_step (k : lcall) (os : list obj) (s : ast) : list obj * ast * result outcome :=
  match k with
  | KGet n => let (s', r) := arun (get_account n true) s in
      (match r with Ok a => os ++ [Obj a None] | Err _ => os end, s', match r with Ok a => Ok (OText a) | Err e => Err e end)
  | KAdd n regex kh bin mode => let (s', r) := arun (live_add n regex kh bin mode None) s in
      let (c, x) := flat r in
      (match x with Ok a => os ++ [Obj a c] | Err _ => os end, s', match x with Ok a => Ok (OText a) | Err e => Err e end)
  | KCall i m => match nth_error os i with
      | None => (os, s, Err AttributeError)
      | Some o => let (s', r) := arun (call_method (o_acct o) m (o_cache o)) s in
          let (c, x) := flat r in (set_nth i (Obj (o_acct o) c) os, s', x)
      end
  | KOther c => let (s', x) := arun (exec c) s in (os, s', x)
  end.
Fixpoint live_run (ks : list lcall) (os : list obj) (s : ast) : list obj * ast * list (result outcome) :=
  match ks with
  | [] => (os, s, [])
  | k :: ks' => let '(os1, s1, x) := live_step k os s in
                let '(os2, s2, xs) := live_run ks' os1 s1 in (os2, s2, x :: xs)
  end.
End Live.
