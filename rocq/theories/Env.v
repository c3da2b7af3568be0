(** The environment of the modelled program: everything it uses but does not define.
    All theorems quantify over an arbitrary [Env]; laws that a theorem needs are
    explicit hypotheses of that theorem. *)
From Verif Require Import Base PyStr.

(** ** email.message.Message: ordered headers and payload.
    Header values are plain text (compat32 policy returns a Header object for values with
    undecodable bytes; that case is not modelled).  [PStr]: the payload was given as str,
    [PBytes]: as bytes (set_payload, mime.py:268). *)
Inductive msg := Msg (headers : list (text * text)) (body : payload)
with payload :=
| PNone
| PStr (t : text)
| PBytes (b : bytes)
| PParts (l : list msg).

Definition m_headers (m : msg) := match m with Msg h _ => h end.
Definition m_body (m : msg) := match m with Msg _ b => b end.

(** ** Values that execnet.gateway_base serialises for the chain store: a block is a list of
    scalars, the heads file a dict text -> text. *)
Inductive scalar := SNone | SStr (t : text) | SBytes (b : bytes) | SFloat (z : Z).
Inductive pyval := PyList (l : list scalar) | PyDict (d : dict text).

(** Result of one gpg process: exit status, stdout, stderr (/repo/muacrypt/bingpg.py:177-185). *)
Record gres := GRes { g_ret : Z; g_out : bytes; g_err : bytes }.

(** Time: floating point seconds are represented exactly as integers counting ticks of
    2^-22 s.  Every double between 2004 and 2038 is a multiple of 2^-22 (52-bit mantissa,
    values below 2^31), and differences of such values are exact doubles. *)
Definition sec : Z := 4194304.

Class Env := {
  (** hashlib.sha256(b).hexdigest() *)
  sha256 : bytes -> text;
  (** execnet dumps / load; load = None stands for any exception *)
  dumps : pyval -> bytes;
  load : bytes -> option pyval;
  (** str.lower() for strings that contain non-ASCII characters; str.isalnum() of one
      non-ASCII character *)
  uni_lower : text -> text;
  uni_alnum : N -> bool;
  (** email.utils.parseaddr(s)[1]; email.utils.getaddresses; email.utils.formataddr (which
      raises UnicodeError for a non-ASCII address) *)
  parseaddr : text -> text;
  getaddresses : list text -> list (text * text);
  formataddr : text * text -> result text;
  (** email.utils.parsedate_tz: the civil time, as seconds since 1970-01-01 00:00 of an
      imaginary UTC clock, and the zone offset in seconds if one was given *)
  parsedate_tz : text -> option (Z * option Z);
  (** time.mktime on civil seconds, in ticks; may raise OverflowError *)
  mktime : Z -> result Z;
  (** re.match(regex, s) is not None; may raise re.error *)
  re_match : text -> text -> result bool;
  (** gpg: one process call reads and writes exactly the key ring it is given *)
  ring : Type;
  ring0 : ring;
  gpg : ring -> list text -> option bytes -> option bytes -> ring * gres;
  (** mime.msg2bytes (BytesGenerator.flatten) and email.message_from_bytes *)
  flatten : msg -> result bytes;
  parse_bytes : bytes -> msg;
  (** os.environ["PATH"] and os.path.isfile; the outcome of "gpg --version" of the program at a
      path, which depends on no key ring *)
  env_path : text;
  is_file : text -> bool;
  version_run : text -> gres;
  (** the n-th value of uuid.uuid4().hex and the n-th reading of time.time() in the life of
      the directory *)
  uuid_hex : nat -> text;
  clock : nat -> Z;
  (** the AccountManager directory *)
  basedir : text;
  (** iteration order of a Python set of (realname, address) pairs *)
  set_order : list (text * text) -> list (text * text);
  (** body of a MIMEText(text, _charset="utf8") and email.utils.formatdate of a clock
      reading *)
  mimetext : text -> payload;
  formatdate : Z -> text
}.

Section WithEnv.
Context {E : Env}.

(** str.lower() *)
Definition lower (s : text) : text :=
  if is_ascii s then map ascii_lower_cp s else uni_lower s.

(** str.isalnum() *)
Definition isalnum_cp (c : N) : bool := if is_ascii_cp c then ascii_alnum_cp c else uni_alnum c.
Definition isalnum (s : text) : bool := nonempty s && forallb isalnum_cp s.

(** ** Message methods (CPython 3.11 Lib/email/message.py) *)

(** msg.get(name) / msg[name] *)
Fixpoint hget_list (h : list (text * text)) (lname : text) : option text :=
  match h with
  | [] => None
  | (k, v) :: h' => if text_eqb (lower k) lname then Some v else hget_list h' lname
  end.
Definition hget (m : msg) (name : text) : option text := hget_list (m_headers m) (lower name).

(** msg.get_all(name) or [] *)
Definition hget_all (m : msg) (name : text) : list text :=
  map snd (filter (fun kv => text_eqb (lower (fst kv)) (lower name)) (m_headers m)).

(** name in msg *)
Definition hin (m : msg) (name : text) : bool :=
  existsb (fun kv => text_eqb (lower (fst kv)) (lower name)) (m_headers m).

(** del msg[name] *)
Definition hdel (m : msg) (name : text) : msg :=
  Msg (filter (fun kv => negb (text_eqb (lower (fst kv)) (lower name))) (m_headers m)) (m_body m).

(** msg[name] = value (appends) *)
Definition hadd (m : msg) (name value : text) : msg :=
  Msg (m_headers m ++ [(name, value)]) (m_body m).

(** str.count of one character *)
Definition count_cp (c : N) (s : text) : nat := length (filter (N.eqb c) s).

(** msg.get_content_type().  Not modelled: the default type message/rfc822 of parts of a
    multipart/digest. *)
Definition get_content_type (m : msg) : text :=
  match hget m (L "content-type") with
  | None => L "text/plain"
  | Some v =>
    let ctype := lower (strip (hd [] (split_on 59 v))) in
    if Nat.eqb (count_cp 47 ctype) 1 then ctype else L "text/plain"
  end.

(** ** email.utils.parsedate and time.mktime *)
Definition parsedate (s : text) : option Z := option_map fst (parsedate_tz s).

End WithEnv.
