(** Writing a mail as bytes and reading it back: mime.msg2bytes (/repo/muacrypt/mime.py:36-47)
    before encryption (account.py:519) and email.message_from_bytes after decryption
    (account.py:546); as_string when a mail is sent (cmdline.py:370, 421, bot.py:24, 131) and
    parsing of standard input (mime.py:94-95).  All are calls of Python's email package with the
    default policy compat32; what it does is modelled here after CPython 3.11,
    Lib/email/generator.py and Lib/email/feedparser.py.  [Env] leaves [flatten] and
    [parse_bytes] open, [Shell] as_string; C94 and C95 are about environments in which they are
    the functions of this file.

    Simplified: text before the first and after the last part of a multipart mail is not part
    of [msg]; a unix-from line at the beginning is skipped. *)
From Verif Require Import Base PyStr Env.

(** What the two files leave to others. *)
Class EmailLib := {
  (** msg.get_boundary() for a content type *)
  boundary_of : text -> option text;
  (** _make_boundary for the texts of the parts, and msg.set_boundary for a content type *)
  new_boundary : list text -> text;
  with_boundary : text -> text -> text;
  (** policy.fold for fields that do not fit into their lines as they are; [true]: within
      multipart/signed, where lines may be of any length *)
  fold_field : bool -> text -> text -> text;
  (** mails and parts of type message/... and multipart/digest, and multipart with an
      empty boundary or with a text other than ASCII in place of parts; bytes that are not ASCII in
      as_string *)
  other_text : msg -> result text;
  other_msg : text -> msg
}.

Section EmailText.
Context {E : Env} {EL : EmailLib}.

(** ** Bytes as text: str.encode("ascii", "surrogateescape") and the inverse *)
Definition escaped (c : N) : bool := (N.leb 56448 c && N.leb c 56575)%N.
Fixpoint to_bytes (t : text) : result bytes :=
  match t with
  | [] => Ok []
  | c :: t' =>
    if N.ltb c 128 then rbind (to_bytes t') (fun b => Ok (c :: b))
    else if escaped c then rbind (to_bytes t') (fun b => Ok ((c - 56320)%N :: b))
    else Err UnicodeError
  end.
Definition from_bytes (b : bytes) : text := map (fun c => if N.ltb c 128 then c else (c + 56320)%N) b.

(** ** Lines *)
Definition at_lf (t : text) : bool := match t with c :: _ => N.eqb c 10 | [] => false end.
(** readlines() with newline="": lines with their ends, which are LF, CR or CR LF *)
Fixpoint keep_lines (t : text) : list text :=
  match t with
  | [] => []
  | c :: t' =>
    if N.eqb c 10 || (N.eqb c 13 && negb (at_lf t')) then [c] :: keep_lines t'
    else match keep_lines t' with [] => [[c]] | l :: ls => (c :: l) :: ls end
  end.
(** a text without the line end at its end (NLCRE_eol) *)
Definition chomp (t : text) : text :=
  match rev t with
  | c :: r => if N.eqb c 10 then match r with d :: r' => if N.eqb d 13 then rev r' else rev r | [] => [] end
              else if N.eqb c 13 then rev r else t
  | [] => []
  end.

(** ** Writing *)
(** fcre.sub(">From ", payload), where fcre is ^From with a blank, multi-line; [bol]: at the
    beginning of a line *)
Fixpoint mangle (bol : bool) (t : text) : text :=
  match t with
  | [] => []
  | c :: t' => (if bol && startswith (L "From ") t then [62%N] else []) ++ c :: mangle (N.eqb c 10) t'
  end.
(** _write_lines: every line end becomes LF *)
Fixpoint norm_nl (t : text) : text :=
  match t with
  | [] => []
  | c :: t' => if N.eqb c 13 then (if at_lf t' then norm_nl t' else 10%N :: norm_nl t') else c :: norm_nl t'
  end.

(** Header.encode with lines of 78 characters leaves a field as it is if the first line fits,
    each further line begins with blanks and fits or has only one word, and no line ends with a
    blank; [wide]: with lines of any length (up to a million characters) *)
Definition printable (l : text) : bool := forallb (fun c => N.leb 32 c && N.leb c 126) l.
Definition blank (c : N) : bool := N.eqb c 32.
Fixpoint drop_blanks (l : text) : text := match l with c :: l' => if blank c then drop_blanks l' else l | [] => [] end.
Definition no_blank_end (l : text) : bool := match rev l with c :: _ => negb (blank c) | [] => true end.
Definition first_fits (wide : bool) (n l : text) : bool :=
  printable l && no_blank_end l && negb (match l with c :: _ => blank c | [] => false end) && (wide || Nat.leb (length n + 2 + length l) 78).
Definition next_fits (wide : bool) (l : text) : bool :=
  printable l && no_blank_end l && (match l with c :: _ => blank c | [] => false end) &&
  (wide || Nat.leb (length l) 78 || negb (existsb blank (drop_blanks l))).
Definition fits (wide : bool) (n v : text) : bool :=
  match split_on 10 v with
  | l :: ls => first_fits wide n l && forallb (next_fits wide) ls
  | [] => false
  end.
Definition write_field (wide : bool) (f : text * text) : text :=
  (if fits wide (fst f) (snd f) then fst f ++ L ": " ++ snd f else fold_field wide (fst f) (snd f)) ++ [10%N].

Inductive kind := KText | KMulti (wide : bool) (b : option text) | KOther.
Definition main_type (ct : text) : text := hd [] (split_on 47 ct).
Definition kind_of (m : msg) : kind :=
  let ct := get_content_type m in
  if text_eqb (main_type ct) (L "multipart") then
    if text_eqb ct (L "multipart/digest") then KOther
    else KMulti (text_eqb ct (L "multipart/signed"))
           match hget m (L "content-type") with Some v => boundary_of v | None => None end
  else if text_eqb (main_type ct) (L "message") then KOther
  else KText.

(** _handle_multipart *)
Definition in_parts (b : text) (ts : list text) : text :=
  L "--" ++ b ++ [10%N] ++ join ([10%N] ++ L "--" ++ b ++ [10%N]) ts ++ [10%N] ++ L "--" ++ b ++ L "--" ++ [10%N].

Definition rall {A B} (f : A -> result B) : list A -> result (list B) :=
  fix go (l : list A) : result (list B) :=
  match l with
  | [] => Ok []
  | x :: l' => rbind (f x) (fun y => rbind (go l') (fun ys => Ok (y :: ys)))
  end.

(** msg.set_boundary *)
Definition set_boundary (b : text) (h : list (text * text)) : list (text * text) :=
  match hget_list h (L "content-type") with
  | Some v => map (fun f => if text_eqb (lower (fst f)) (L "content-type") then (fst f, with_boundary v b) else f) h
  | None => h
  end.
(** utils._has_surrogates *)
Definition has_surrogates (t : text) : bool := existsb (fun c => N.leb 55296 c && N.leb c 57343) t.
(** _write, _dispatch, _handle_text.  [quote]: the BytesGenerator with its default
    mangle_from_=True; otherwise the Generator as as_string calls it, with mangle_from_=False.  A
    bytes payload was decoded by set_payload. *)
Definition written_text (quote : bool) (heads t : text) (other : result text) : result text :=
  if quote then Ok (heads ++ norm_nl (mangle true t))
  else if has_surrogates t then other else Ok (heads ++ norm_nl t).
Fixpoint mail_text (quote wide : bool) (m : msg) : result text :=
  match m with
  | Msg h b =>
    let heads := concat (map (write_field wide) h) ++ [10%N] in
    match kind_of m with
    | KText =>
      match b with
      | PNone => Ok heads
      | PStr t => written_text quote heads t (other_text m)
      | PBytes t => written_text quote heads (from_bytes t) (other_text m)
      | PParts _ => Err TypeError
      end
    | KMulti w bd =>
      match b, bd with
      | PStr t, _ | PBytes t, _ => if is_ascii t then Ok (heads ++ t) else other_text m
      | PNone, Some (c :: bd') => Ok (heads ++ in_parts (c :: bd') [])
      | PParts ps, Some (c :: bd') => rbind (rall (mail_text quote (wide || w)) ps) (fun ts => Ok (heads ++ in_parts (c :: bd') ts))
      | PParts ps, None => rbind (rall (mail_text quote (wide || w)) ps) (fun ts =>
          let nb := new_boundary ts in
          Ok ((concat (map (write_field wide) (set_boundary nb h)) ++ [10%N]) ++ in_parts nb ts))
      | _, _ => other_text m
      end
    | KOther => other_text m
    end
  end.
(** mime.py:43-47 msg2bytes *)
Definition mail_bytes (m : msg) : result bytes := rbind (mail_text true false m) to_bytes.
(** msg.as_string() *)
Definition mail_string (m : msg) : result text := mail_text false true m.

(** ** Reading *)
(** headerRE *)
Definition name_char (c : N) : bool := (N.leb 33 c && N.leb c 126 && negb (N.eqb c 58))%N.
Fixpoint named_line (l : text) : bool :=
  match l with c :: l' => N.eqb c 58 || (name_char c && named_line l') | [] => false end.
Definition blank_or_tab (c : N) : bool := N.eqb c 32 || N.eqb c 9.
Definition continues (l : text) : bool := match l with c :: _ => blank_or_tab c | [] => false end.
Definition header_line (l : text) : bool := startswith (L "From ") l || named_line l || continues l.
Definition at_eol (l : text) : bool := match l with c :: _ => N.eqb c 10 || N.eqb c 13 | [] => false end.
(** the lines of the header, and what follows *)
Fixpoint head_lines (ls : list text) : list text * list text :=
  match ls with
  | [] => ([], [])
  | l :: ls' => if header_line l then let (a, b) := head_lines ls' in (l :: a, b)
                else if at_eol l then ([], ls') else ([], ls)
  end.
(** a line From ... at the end of the header, but not at its beginning, belongs to the body *)
Definition give_back (hl rest : list text) : list text * list text :=
  match rev hl with
  | l :: _ :: _ => if startswith (L "From ") l then (removelast hl, l :: rest) else (hl, rest)
  | _ => (hl, rest)
  end.
Fixpoint until_colon (l : text) : text := match l with c :: l' => if N.eqb c 58 then [] else c :: until_colon l' | [] => [] end.
Fixpoint after_colon (l : text) : text := match l with c :: l' => if N.eqb c 58 then l' else after_colon l' | [] => [] end.
Fixpoint drop_while (f : N -> bool) (l : text) : text := match l with c :: l' => if f c then drop_while f l' else l | [] => [] end.
Definition drop_end (f : N -> bool) (l : text) : text := rev (drop_while f (rev l)).
(** compat32.header_source_parse *)
Definition field_value (l : text) (more : list text) : text :=
  drop_end (fun c => N.eqb c 10 || N.eqb c 13) (drop_while blank_or_tab (after_colon l) ++ concat more).
(** _parse_headers: the lines that continue the line before, and the fields *)
Fixpoint field_lines (ls : list text) : list text * list (text * text) :=
  match ls with
  | [] => ([], [])
  | l :: ls' =>
    let (more, fs) := field_lines ls' in
    if continues l then (l :: more, fs)
    else if startswith (L "From ") l then ([], fs)
    else match until_colon l with [] => ([], fs) | n => ([], (n, field_value l more) :: fs) end
  end.

Fixpoint without_prefix (p t : text) : option text :=
  match p, t with
  | [], _ => Some t
  | c :: p', d :: t' => if N.eqb c d then without_prefix p' t' else None
  | _ :: _, [] => None
  end.
(** boundaryre: is this line a delimiter, and the last one? *)
Definition delim (b l : text) : option bool :=
  match without_prefix (L "--" ++ b) (chomp l) with
  | None => None
  | Some r =>
    if forallb blank_or_tab r then Some false
    else match without_prefix (L "--") r with
         | Some r' => if forallb blank_or_tab r' then Some true else None
         | None => None
         end
  end.
(** the lines before the first delimiter, and the lines after it unless it is the last one *)
Fixpoint before_parts (b : text) (ls : list text) : list text :=
  match ls with l :: ls' => match delim b l with None => l :: before_parts b ls' | Some _ => [] end | [] => [] end.
Fixpoint first_part (b : text) (ls : list text) : option (list text) :=
  match ls with
  | l :: ls' => match delim b l with None => first_part b ls' | Some false => Some ls' | Some true => None end
  | [] => None
  end.
(** the lines of each part; [fresh]: right after a delimiter, where more of them are skipped *)
Fixpoint part_lines (b : text) (fresh : bool) (ls : list text) : list (list text) :=
  match ls with
  | [] => [[]]
  | l :: ls' =>
    match delim b l with
    | None => match part_lines b false ls' with p :: ps => (l :: p) :: ps | [] => [[l]] end
    | Some last => if fresh then part_lines b true ls' else if last then [[]] else [] :: part_lines b true ls'
    end
  end.
(** the line end before a delimiter belongs to the delimiter *)
Definition cleansed (m : msg) : msg :=
  match kind_of m, m_body m with
  | KText, PStr t => Msg (m_headers m) (PStr (chomp t))
  | _, _ => m
  end.
Fixpoint mail_of (fuel : nat) (ls : list text) : msg :=
  let (hl0, rest0) := head_lines ls in
  let (hl, rest) := give_back hl0 rest0 in
  let h := snd (field_lines hl) in
  match kind_of (Msg h PNone) with
  | KText | KMulti _ None => Msg h (PStr (concat rest))
  | KMulti _ (Some b) =>
    match first_part b rest, fuel with
    | None, _ => Msg h (PStr (concat (before_parts b rest)))
    | Some ls', S fuel' => Msg h (PParts (map (fun p => cleansed (mail_of fuel' p)) (part_lines b true ls')))
    | Some _, O => other_msg (concat ls)
    end
  | KOther => other_msg (concat ls)
  end.
(** account.py:546 message_from_bytes *)
Definition mail_read (b : bytes) : msg := mail_of (length b) (keep_lines (from_bytes b)).
(** mime.py:94-95 parse_message_from_file, email.message_from_string *)
Definition string_read (t : text) : msg := mail_of (length t) (keep_lines t).
End EmailText.
