(** /repo/muacrypt/mime.py: header parsing and message construction (pure functions). *)
From Verif Require Import Base PyStr Base64 Env.

Section Mime.
Context {E : Env}.

(** mime.py:82-91 parse_email_addr; the argument is None when a header is missing, and then
    parseaddr returns ('', '').  (The bytes branch is Python 2 only.) *)
Definition parse_email_addr (s : option text) : text :=
  match s with
  | None => []
  | Some s => lower (parseaddr s)
  end.

(** mime.py:65-70 indented_split(value, 78, "  ") *)
Fixpoint chunks (fuel n : nat) (s : text) : list text :=
  match fuel, s with
  | O, _ | _, [] => []
  | S f, _ => firstn n s :: chunks f n (skipn n s)
  end.
Definition indented_split (value : text) : result text :=
  if existsb (N.eqb 10) value then Err AssertionError
  else Ok (rstrip (concat (map (fun l => L "  " ++ l ++ [10%N]) (chunks (length value) 78 value)))).

(** mime.py:52-62 make_ac_header_value for keydata of type bytes *)
Definition make_ac_header_value (addr : text) (keydata : bytes) (pref : text) : result text :=
  let addr := parse_email_addr (Some addr) in
  if nonempty keydata then
    rbind (indented_split (b64encode keydata)) (fun key =>
      Ok (join (L "; ")
        ([L "addr=" ++ addr]
         ++ (if text_eqb pref (L "nopreference") then [] else [L "prefer-encrypt=" ++ pref])
         ++ [L "keydata=" ++ [10%N] ++ key])))
  else Err AssertionError.

(** mime.py:77-79, 73-74 *)
Definition get_target_fulladr (m : msg) : list (text * text) :=
  getaddresses (hget_all m (L "to") ++ hget_all m (L "cc")).
Definition get_target_emailadr (m : msg) : list text := map snd (get_target_fulladr m).

(** mime.py:106-112 is_encrypted.  len() of a missing payload is a TypeError; the elements of
    a str or bytes payload have no get_content_type. *)
Definition is_encrypted (m : msg) : result bool :=
  if text_eqb (get_content_type m) (L "multipart/encrypted") then
    match m_body m with
    | PNone => Err TypeError
    | PStr s => if Nat.eqb (length s) 2 then Err AttributeError else Ok false
    | PBytes s => if Nat.eqb (length s) 2 then Err AttributeError else Ok false
    | PParts [p0; p1] =>
      Ok (text_eqb (get_content_type p0) (L "application/pgp-encrypted")
          && text_eqb (get_content_type p1) (L "application/octet-stream"))
    | PParts _ => Ok false
    end
  else Ok false.

(** mime.py:203-209 ACParseResult *)
Record pah := PAH {
  p_keydata : option bytes;
  p_addr : option text;
  p_pref : option text;
  p_extra : option (dict text);
  p_error : option text
}.
Definition pah_error (e : text) : pah := PAH None None None None (Some e).
(** truth value of pah.error *)
Definition has_error (p : pah) : bool := match p_error p with Some e => nonempty e | None => false end.

(** mime.py:162-200 parse_ac_headervalue.  [h_kd], [h_pref], [h_addr] are the entries of
    result_dict, [h_extra] is extra_attr. *)
Record hstate := HS { h_kd : option bytes; h_pref : text; h_addr : option text; h_extra : dict text }.

(** One iteration of the loop at lines 175-196.  [inr r] is an early return of r. *)
Definition ac_step (st : hstate) (x : text) : result (hstate + pah) :=
  match split_max 61 1 x with
  | [k; v] =>
    let name := strip k in
    let value := strip v in
    if text_eqb name (L "keydata") then
      match b64decode (join [] (split_ws value)) with
      | Ok b => Ok (inl (HS (Some b) (h_pref st) (h_addr st) (h_extra st)))
      | Err _ => Ok (inr (pah_error (L "failed to decode keydata")))
      end
    else if text_eqb name (L "prefer-encrypt") then
      if mem_text value [L "nopreference"; L "mutual"] then
        Ok (inl (HS (h_kd st) value (h_addr st) (h_extra st)))
      else Ok (inr (pah_error (L "unknown prefer-encrypt setting '" ++ value ++ L "'")))
    else if text_eqb name (L "addr") then
      Ok (inl (HS (h_kd st) (h_pref st) (Some (parse_email_addr (Some value))) (h_extra st)))
    else
      match name with
      | [] => Err IndexError
      | c :: _ =>
        if N.eqb c 95 then Ok (inl (HS (h_kd st) (h_pref st) (h_addr st) (dset (h_extra st) name value)))
        else Ok (inr (pah_error (L "unknown critical attr '" ++ name ++ L "'")))
      end
  | _ => Ok (inr (pah_error (L "malformed setting")))
  end.

Fixpoint ac_loop (st : hstate) (parts : list text) : result (hstate + pah) :=
  match parts with
  | [] => Ok (inl st)
  | x :: parts' =>
    match ac_step st x with
    | Ok (inl st') => ac_loop st' parts'
    | r => r
    end
  end.

(** The test at line 170 never fires: [filter] returns an (always true) iterator in Python 3. *)
Definition parse_ac_headervalue (value : text) : result pah :=
  let parts := filter nonempty (map strip (split_on 59 value)) in
  rbind (ac_loop (HS None (L "nopreference") None []) parts) (fun r =>
    match r with
    | inr p => Ok p
    | inl st =>
      match h_kd st with
      | None => Ok (pah_error (L "critical attr 'keydata' missing"))
      | Some kd =>
        match h_addr st with
        | None => Ok (pah_error (L "critical attr 'addr' missing"))
        | Some a => Ok (PAH (Some kd) (Some a) (Some (h_pref st)) (Some (h_extra st)) None)
        end
      end
    end).

(** the loop mime.py:131-139; results and err_results in order *)
Fixpoint ac_headers_loop (fromlist : list text) (vals : list text) : result (list pah * list pah) :=
  match vals with
  | [] => Ok ([], [])
  | v :: vals' =>
    rbind (parse_ac_headervalue v) (fun r =>
    rbind (ac_headers_loop fromlist vals') (fun '(rs, es) =>
      if has_error r then Ok (rs, r :: es)
      else if nonempty fromlist
              && negb (match p_addr r with Some a => mem_text a fromlist | None => false end)
      then Ok (rs, pah_error (L "addr does not match") :: es)
      else Ok (r :: rs, es)))
  end.

(** mime.py:120-147 parse_one_ac_header_from_msg.  The %r renderings inside error texts are
    not modelled. *)
Definition parse_one_ac_header_from_msg (m : msg) (fromlist : list text) : result pah :=
  if text_eqb (get_content_type m) (L "multipart/report") then
    Ok (pah_error (L "Ignoring 'multipart/report' message."))
  else
    let froms := hget_all m (L "From") in
    let fromlist := map (fun x => parse_email_addr (Some x)) fromlist in
    if Nat.ltb 1 (length (getaddresses froms)) then
      Ok (pah_error (L "Ignoring message with more than one address in From header."))
    else
      rbind (ac_headers_loop fromlist (hget_all m (L "Autocrypt"))) (fun '(rs, es) =>
        match rs with
        | [r] => Ok r
        | _ :: _ :: _ => Ok (pah_error (L "more than one valid Autocrypt header found"))
        | [] =>
          match es with
          | e :: _ => Ok e
          | [] => Ok (pah_error (L "no valid Autocrypt header found"))
          end
        end).

(** mime.py:150-159 get_gossip_headers_from_msg *)
Fixpoint gossip_loop (acc : dict pah) (vals : list text) : result (dict pah) :=
  match vals with
  | [] => Ok acc
  | v :: vals' =>
    rbind (parse_ac_headervalue v) (fun r =>
      if has_error r then gossip_loop acc vals'
      else gossip_loop (match p_addr r with Some a => dset acc a r | None => acc end) vals')
  end.
Definition get_gossip_headers_from_msg (m : msg) : result (dict pah) :=
  gossip_loop [] (hget_all m (L "Autocrypt-Gossip")).

(** mime.py:263-269 make_message *)
Definition make_message (content_type : text) (p : payload) : msg :=
  Msg [(L "Content-Type", content_type)] p.

(** mime.py:272-278 make_content_message_from_email *)
Definition is_content_header (k : text) : bool :=
  mem_text (lower k) [L "content-transfer-encoding"; L "content-type"].
Definition make_content_message_from_email (m : msg) : msg :=
  fold_left (fun m' k => if is_content_header k then m' else hdel m' k) (map fst (m_headers m)) m.

(** mime.py:281-285 transfer_non_content_headers(msg, newmsg) *)
Definition is_ignored_header (k : text) : bool :=
  mem_text (lower k) [L "content-type"; L "mime-version"; L "content-transfer-encoding"].
Definition transfer_non_content_headers (m newmsg : msg) : msg :=
  fold_left (fun n kv => if is_ignored_header (fst kv) then n else hadd n (fst kv) (snd kv))
            (m_headers m) newmsg.

(** mime.py:288-294 get_delivered_to *)
Definition get_delivered_to (m : msg) (fallback : option text) : result text :=
  let d := parse_email_addr (hget m (L "Delivered-To")) in
  let d := if nonempty d then d
           else match fallback with
                | Some f => if nonempty f then parse_email_addr (Some f) else d
                | None => d
                end in
  if nonempty d then Ok d else Err ValueError.

End Mime.
