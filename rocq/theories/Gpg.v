(** /repo/muacrypt/bingpg.py: the gpg command line wrapper. *)
From Verif Require Import Base PyStr Env Prog Chain.

Section Gpg.
Context {E : Env}.

(** bingpg.py:391-426 find_executable, on POSIX systems; os.path.isabs and os.path.join for a
    relative second argument.  PATH is assumed to be set. *)
Definition isabs (p : text) : bool := startswith (L "/") p.
Definition path_join (dir name : text) : text :=
  if negb (nonempty dir) || N.eqb (last dir 0%N) 47 then dir ++ name else dir ++ L "/" ++ name.
Definition find_executable (name : text) : option text :=
  if isabs name then if is_file name then Some name else None
  else find is_file (map (fun dir => path_join dir name) (split_on 58 env_path)).

(** A BinGPG object: home directory (None = system ring) and path of the binary. *)
Record bingpg := BinGPG { gp_home : option text; gp_path : text }.

(** ** distutils.version.LooseVersion: the components of a version string are its runs of
    digits (as numbers), its runs of lower case letters, and the other stretches of text
    between those, without the dots. *)
Inductive vpart := VNum (n : N) | VText (t : text).
Definition is_digit (c : N) : bool := N.leb 48 c && N.leb c 57.
Definition is_lower_az (c : N) : bool := N.leb 97 c && N.leb c 122.
Inductive vclass := CDigit | CLetter | CDot | COther.
Definition vclass_of (c : N) : vclass :=
  if is_digit c then CDigit else if is_lower_az c then CLetter else if N.eqb c 46 then CDot else COther.
Definition vclass_eqb (a b : vclass) : bool :=
  match a, b with CDigit, CDigit | CLetter, CLetter | COther, COther => true | _, _ => false end.
(** maximal runs of one class; every dot is a run of its own *)
Fixpoint vruns (s : text) : list (vclass * text) :=
  match s with
  | [] => []
  | c :: s' =>
    match vruns s' with
    | (k, r) :: rs => if vclass_eqb (vclass_of c) k then (k, c :: r) :: rs else (vclass_of c, [c]) :: (k, r) :: rs
    | [] => [(vclass_of c, [c])]
    end
  end.
Definition num_of (s : text) : N := fold_left (fun n c => (10 * n + (c - 48))%N) s 0%N.
Definition vpart_of (p : vclass * text) : list vpart :=
  match fst p with CDigit => [VNum (num_of (snd p))] | CDot => [] | _ => [VText (snd p)] end.
Definition loose_version (s : text) : list vpart := flat_map vpart_of (vruns s).
(** a >= b: comparison of Python lists; numbers and texts cannot be compared *)
Fixpoint version_ge (a b : list vpart) : result bool :=
  match a, b with
  | _, [] => Ok true
  | [], _ => Ok false
  | VNum x :: a', VNum y :: b' => if N.eqb x y then version_ge a' b' else Ok (N.leb y x)
  | VText x :: a', VText y :: b' => if text_eqb x y then version_ge a' b' else Ok (text_leb y x)
  | _, _ => Err TypeError
  end.

(** bingpg.py:90-97 _version_info and gpg_version; the result is cached, and here it is the
    same at every time.  The version of an empty string has no attribute "version". *)
Definition version_info (path : text) : result text :=
  let r := version_run path in
  if Z.eqb (g_ret r) 130 then Err KeyboardInterrupt
  else match utf8 (g_err r), utf8 (g_out r) with
       | Some _, Some out => if Z.eqb (g_ret r) 0 then Ok out else Err InvocationFailure
       | _, _ => Err UnicodeError
       end.
Definition gpg_version (path : text) : result (list vpart) :=
  rbind (version_info path) (fun out =>
    match nth_error (split_on 32 (hd [] (split_on 10 out))) 2 with
    | None => Err IndexError
    | Some [] => Err AttributeError
    | Some v => Ok (loose_version v)
    end).
(** bingpg.py:99-105 isgpg2, isgpg21 *)
Definition isgpg2 (path : text) : result bool := rbind (gpg_version path) (fun v => version_ge v [VNum 2; VNum 0]).
Definition isgpg21 (path : text) : result bool := rbind (gpg_version path) (fun v => version_ge v [VNum 2; VNum 1]).

(** bingpg.py:107-121 _ensure_init for a home directory: whether gpg-agent.conf is written
    (2.0 <= v < 2.1.12) if it is not there.  The files themselves are in Disk.v. *)
Definition wants_agent_conf (path : text) : result bool :=
  rbind (gpg_version path) (fun v => rbind (version_ge v [VNum 2; VNum 0]) (fun b =>
    if b then rbind (version_ge v [VNum 2; VNum 1; VNum 12]) (fun b' => Ok (negb b')) else Ok false)).

(** bingpg.py:66-84 BinGPG.__init__ *)
Definition mk_bingpg (home : option text) (path : text) : result bingpg :=
  match find_executable path with
  | None => Err ValueError
  | Some p => rbind (match home with None => Ok false | Some _ => wants_agent_conf p end) (fun _ => Ok (BinGPG home p))
  end.

(** bingpg.py:139-141 *)
Definition homedirflags (g : bingpg) : list text :=
  match gp_home g with
  | Some h => if nonempty h then [L "--homedir"; h] else []
  | None => []
  end.

(** bingpg.py:143-148 _nopassphrase: the options, once the version is known *)
Definition gpg21 (path : text) : bool := match isgpg21 path with Ok b => b | Err _ => false end.
Definition nopassphrase (g : bingpg) : list text :=
  [L "--passphrase"; L "123"] ++ (if gpg21 (gp_path g) then [L "--pinentry-mode=loopback"] else []).
Definition version_known (g : bingpg) : prog cop bool := lift (isgpg21 (gp_path g)).

(** bingpg.py:150-194 _gpg_outerr.  [dec] says whether stdout is decoded as UTF-8
    (encoding="utf8") or returned as bytes (encoding=None); both are number lists.
    Popen failing to start the process is not modelled. *)
Definition gpg_outerr (g : bingpg) (argv : list text) (inp tmp : option bytes)
  (strict dec : bool) : prog cop (list N * text) :=
  r <- perform (CGpg ([gp_path g; L "--batch"] ++ homedirflags g ++ argv) inp tmp) ;;
  if Z.eqb (g_ret r) 130 then Raise KeyboardInterrupt
  else
    match utf8 (g_err r) with
    | None => Raise UnicodeError
    | Some err =>
      match (if dec then utf8 (g_out r) else Some (g_out r)) with
      | None => Raise UnicodeError
      | Some out =>
        if negb (Z.eqb (g_ret r) 0) || (strict && nonempty err) then Raise InvocationFailure
        else Ret (out, err)
      end
    end.

(** bingpg.py:372-388 KeyInfo: key id and uids; [ki_main] records whether the line was of
    the primary type (types[0]). *)
Record keyinfo := KeyInfo { ki_id : text; ki_uids : list text; ki_main : bool }.

(** bingpg.py:380-382 KeyInfo.match.  Slices [-i:] with i = 0 are the whole string. *)
Definition ki_match (id other : text) : bool :=
  let i := Nat.min (length other) (length id) in
  text_eqb (lower (suffix_slice i id)) (lower (suffix_slice i other)).

(** int(s) succeeds: optional sign and ASCII digits, surrounded by white space.
    (Python also accepts underscores and non-ASCII digits.) *)
Definition py_int_ok (s : text) : bool :=
  let s := strip s in
  let s := match s with c :: s' => if N.eqb c 43 || N.eqb c 45 then s' else s | [] => [] end in
  nonempty s && forallb is_digit s.

(** append a uid to the newest primary keyinfo (list is newest first) *)
Fixpoint add_uid (l : list keyinfo) (uid : text) : list keyinfo :=
  match l with
  | [] => []
  | k :: l' => if ki_main k then KeyInfo (ki_id k) (ki_uids k ++ [uid]) true :: l'
               else k :: add_uid l' uid
  end.

(** body of the loop bingpg.py:250-259; keyinfos newest first *)
Definition parse_line (t0 t1 : text) (acc : list keyinfo) (line : text) : result (list keyinfo) :=
  let parts := split_on 58 line in
  let p0 := hd [] parts in
  if text_eqb p0 t0 || text_eqb p0 t1 then
    match nth_error parts 3, nth_error parts 2 with
    | Some _, Some bits =>
      if py_int_ok bits then
        match nth_error parts 9, nth_error parts 4, nth_error parts 5 with
        | Some uid, Some id, Some _ =>
          Ok (KeyInfo id (if nonempty uid then [uid] else []) (text_eqb p0 t0) :: acc)
        | _, _, _ => Err IndexError
        end
      else Err ValueError
    | _, _ => Err IndexError
    end
  else if text_eqb p0 (L "uid") then
    if existsb ki_main acc then
      match nth_error parts 9 with
      | Some uid => Ok (add_uid acc uid)
      | None => Err IndexError
      end
    else Err AttributeError
  else Ok acc.

Fixpoint parse_lines (t0 t1 : text) (acc : list keyinfo) (lines : list text) : result (list keyinfo) :=
  match lines with
  | [] => Ok (rev acc)
  | l :: ls => rbind (parse_line t0 t1 acc l) (fun acc' => parse_lines t0 t1 acc' ls)
  end.

(** bingpg.py:246-260 _parse_list *)
Definition parse_list (g : bingpg) (args : list text) (t0 t1 : text) : prog cop (list keyinfo) :=
  '(out, _) <- gpg_outerr g args None None false true ;;
  lift (parse_lines t0 t1 [] (splitlines out)).

(** bingpg.py:226-230, 240-244; always called with a key handle *)
Definition list_secret_keyinfos (g : bingpg) (kh : text) : prog cop (list keyinfo) :=
  parse_list g [L "--skip-verify"; L "--with-colons"; L "--list-secret-keys"; kh] (L "sec") (L "ssb").
Definition list_public_keyinfos (g : bingpg) (kh : text) : prog cop (list keyinfo) :=
  parse_list g [L "--skip-verify"; L "--with-colons"; L "--list-public-keys"; kh] (L "pub") (L "sub").

(** bingpg.py:232-238 get_secret_keyhandle *)
Definition get_secret_keyhandle (g : bingpg) (kh : text) : prog cop (option text) :=
  l <- list_secret_keyinfos g kh ;;
  Ret (option_map ki_id (find (fun k => existsb (contains kh) (ki_uids k) || ki_match (ki_id k) kh) l)).

(** re.compile("key (?:ID )?([0-9A-F]+)").search(string): leftmost match, group 1 greedy *)
Definition is_hex (c : N) : bool := (N.leb 48 c && N.leb c 57) || (N.leb 65 c && N.leb c 70).
Fixpoint span_hex (s : text) : text :=
  match s with
  | c :: s' => if is_hex c then c :: span_hex s' else []
  | [] => []
  end.
Definition match_key_at (s : text) : option text :=
  if startswith (L "key ") s then
    let r := skipn 4 s in
    let h1 := if startswith (L "ID ") r then span_hex (skipn 3 r) else [] in
    if nonempty h1 then Some h1
    else let h2 := span_hex r in if nonempty h2 then Some h2 else None
  else None.
Fixpoint search_key (s : text) : option text :=
  match match_key_at s with
  | Some h => Some h
  | None => match s with [] => None | _ :: s' => search_key s' end
  end.

(** bingpg.py:262-275 _find_keyhandle *)
Definition find_keyhandle (g : bingpg) (err : text) : prog cop text :=
  match search_key err with
  | None => Raise AssertionError
  | Some x =>
    if Nat.leb (length x) 8 then
      l <- list_public_keyinfos g x ;;
      match find (fun k => ki_match (ki_id k) x) l with
      | Some k => Ret (ki_id k)
      | None => Raise ValueError
      end
    else Ret x
  end.

(** bingpg.py:203-224 gen_secret_key.  The name of the temporary file in argv is written
    "<tmpfile>"; its content is the [tmp] argument of the operation. *)
Definition key_spec (emailadr : text) : text :=
  join [10%N] [L "Key-Type: RSA"; L "Key-Length: 3072"; L "Key-Usage: sign"; L "Subkey-Type: RSA";
               L "Subkey-Length: 3072"; L "Subkey-Usage: encrypt"; L "Name-Email: " ++ emailadr;
               L "Expire-Date: 0"; L "%commit"].
Definition gen_secret_key (g : bingpg) (emailadr : text) : prog cop text :=
  spec <- lift (encode_utf8 (key_spec emailadr)) ;;
  version_known g ;;;
  '(_, err) <- gpg_outerr g (nopassphrase g ++ [L "--gen-key"; L "<tmpfile>"]) None
                 (Some spec) false true ;;
  find_keyhandle g err.

(** bingpg.py:310-314, 316-320 *)
Definition get_public_keydata (g : bingpg) (kh : text) (armor : bool) : prog cop bytes :=
  '(out, _) <- gpg_outerr g ((if armor then [L "-a"] else []) ++
                 [L "--export-options=export-minimal"; L "--export"; kh]) None None true false ;;
  Ret out.
Definition get_secret_keydata (g : bingpg) (kh : text) (armor : bool) : prog cop bytes :=
  version_known g ;;;
  '(out, _) <- gpg_outerr g ((if armor then [L "-a"] else []) ++ nopassphrase g ++
                 [L "--export-options=export-minimal"; L "--export-secret-key"; kh]) None None true false ;;
  Ret out.

(** bingpg.py:322-331 encrypt *)
Definition encrypt_argv (g : bingpg) (recipients : list text) (signkey : text) : list text :=
  nopassphrase g ++ [L "--encrypt"; L "--always-trust"]
  ++ concat (map (fun r => [L "-r"; r]) recipients)
  ++ (if nonempty signkey then [L "--sign"; L "-u"; signkey] else [])
  ++ [L "--armor"].
Definition gpg_encrypt (g : bingpg) (data : bytes) (recipients : list text) (signkey : text) : prog cop bytes :=
  version_known g ;;;
  '(out, _) <- gpg_outerr g (encrypt_argv g recipients signkey) (Some data) None false false ;;
  Ret out.

(** bingpg.py:349-350 re.match of the expression in [enc_line]: bits,
    type, id and date.  [re_any] is dot-star before the rest of the expression, [re_some f] is a
    group of one or more characters; both try the longest match first.  A line has no line
    break in it.  (\d of Python also matches non-ASCII digits.) *)
Definition re_rest (A : Type) : Type := text -> option A.
Definition re_lit {A} (p : text) (k : re_rest A) : re_rest A :=
  fun s => if startswith p s then k (skipn (length p) s) else None.
Fixpoint re_any {A} (k : re_rest A) (s : text) : option A :=
  match s with
  | [] => k []
  | _ :: s' => match re_any k s' with Some r => Some r | None => k s end
  end.
Fixpoint re_some {A} (f : N -> bool) (k : text -> re_rest A) (s : text) : option A :=
  match s with
  | [] => None
  | c :: s' => if f c then match re_some f (fun g => k (c :: g)) s' with Some r => Some r | None => k [c] s' end else None
  end.
Definition is_word (c : N) : bool := isalnum_cp c || N.eqb c 95.
Definition enc_line (line : text) : option (text * text * text * text) :=
  re_lit (L "gpg") (re_any (re_lit (L "with ") (re_some is_digit (fun bits => re_lit (L "-bit ") (re_some is_word (fun type =>
    re_any (re_lit (L "ID ") (re_some is_word (fun id => re_any (re_lit (L "created ")
      (fun date => Some (bits, type, id, date)))))))))))) line.

(** bingpg.py:342-357 decrypt: the loop over stderr lines.  [uid] is unbound until a line
    starting with four spaces was seen. *)
Definition strip_quotes (s : text) : text :=
  let fix lq (s : text) := match s with c :: s' => if N.eqb c 34 then lq s' else s | [] => [] end in
  rev (lq (rev (lq s))).
Fixpoint enc_keyinfos (fuel : nat) (uid : option text) (lines : list text) : result (list (text * text)) :=
  match fuel, lines with
  | O, _ | _, [] => Ok []
  | S f, line1 :: lines' =>
    match enc_line line1 with
    | None => enc_keyinfos f uid lines'
    | Some (_, _, id, _) =>
      match lines' with
      | [] => Err IndexError
      | line2 :: lines'' =>
        let uid' := if startswith (L "    ") line2 then Some (strip_quotes (strip line2)) else uid in
        match uid' with
        | None => Err UnboundLocalError
        | Some u => rbind (enc_keyinfos f uid' lines'') (fun l => Ok ((id, u) :: l))
        end
      end
    end
  end.
Definition gpg_decrypt (g : bingpg) (enc_data : bytes) : prog cop (bytes * list (text * text)) :=
  version_known g ;;;
  '(out, err) <- gpg_outerr g (nopassphrase g ++ [L "--with-colons"; L "--decrypt"])
                   (Some enc_data) None false false ;;
  infos <- lift (let ls := splitlines err in enc_keyinfos (length ls) None ls) ;;
  Ret (out, infos).

(** bingpg.py:359-369 import_keydata *)
Definition import_keydata (g : bingpg) (keydata : bytes) (minimize : bool) : prog cop text :=
  '(_, err) <- gpg_outerr g [L "--skip-verify"; L "--import"] (Some keydata) None false true ;;
  kh <- find_keyhandle g err ;;
  if minimize then
    minimized <- get_public_keydata g kh false ;;
    gpg_outerr g [L "--yes"; L "--delete-key"; kh] None None false true ;;;
    '(_, err2) <- gpg_outerr g [L "--skip-verify"; L "--import"] (Some minimized) None false true ;;
    min_kh <- find_keyhandle g err2 ;;
    assert_ (text_eqb min_kh kh) ;;;
    Ret kh
  else Ret kh.

End Gpg.
