(** A concrete environment, used only for examples (that hypotheses can be met) and for
    counterexamples.  It behaves like the real libraries and gpg on the inputs used there:
    an injective "hash", a self-delimiting serializer, addresses without quoting, dates
    written as numbers of seconds, and a gpg that keeps a list of keys. *)
From Verif Require Import Base PyStr Env Prog Chain Fs Refine.

(** ** Serializer *)
Definition enc_text (t : text) : bytes := N.of_nat (length t) :: t.
Definition enc_Z (z : Z) : bytes := [if Z.ltb z 0 then 1%N else 0%N; Z.abs_N z].
Definition enc_scalar (s : scalar) : bytes :=
  match s with
  | SNone => [0%N]
  | SStr t => 1%N :: enc_text t
  | SBytes b => 2%N :: enc_text b
  | SFloat z => 3%N :: enc_Z z
  end.
Definition toy_dumps (v : pyval) : bytes :=
  match v with
  | PyList l => 0%N :: N.of_nat (length l) :: concat (map enc_scalar l)
  | PyDict d => 1%N :: N.of_nat (length d) :: concat (map (fun kv => enc_text (fst kv) ++ enc_text (snd kv)) d)
  end.

Definition dec_text (b : bytes) : option (text * bytes) :=
  match b with
  | [] => None
  | n :: b' => let n := N.to_nat n in
               if Nat.leb n (length b') then Some (firstn n b', skipn n b') else None
  end.
Definition dec_scalar (b : bytes) : option (scalar * bytes) :=
  match b with
  | 0%N :: b' => Some (SNone, b')
  | 1%N :: b' => match dec_text b' with Some (t, r) => Some (SStr t, r) | None => None end
  | 2%N :: b' => match dec_text b' with Some (t, r) => Some (SBytes t, r) | None => None end
  | 3%N :: s :: a :: b' => Some (SFloat (if N.eqb s 1 then - Z.of_N a else Z.of_N a)%Z, b')
  | _ => None
  end.
Definition dec_pair (b : bytes) : option ((text * text) * bytes) :=
  match dec_text b with
  | Some (k, r) => match dec_text r with Some (v, r') => Some ((k, v), r') | None => None end
  | None => None
  end.
Fixpoint dec_many {A} (dec : bytes -> option (A * bytes)) (n : nat) (b : bytes) : option (list A) :=
  match n with
  | O => match b with [] => Some [] | _ => None end
  | S n' =>
    match dec b with
    | Some (x, r) => option_map (cons x) (dec_many dec n' r)
    | None => None
    end
  end.
Definition toy_load (b : bytes) : option pyval :=
  match b with
  | 0%N :: n :: b' => option_map PyList (dec_many dec_scalar (N.to_nat n) b')
  | 1%N :: n :: b' => option_map PyDict (dec_many dec_pair (N.to_nat n) b')
  | _ => None
  end.

Lemma dec_enc_text t r : dec_text (enc_text t ++ r) = Some (t, r).
Proof.
  unfold dec_text, enc_text. cbn [app]. rewrite Nat2N.id.
  replace (Nat.leb (length t) (length (t ++ r))) with true
    by (symmetry; apply Nat.leb_le; rewrite app_length; lia).
  rewrite firstn_app, skipn_app, Nat.sub_diag, firstn_all, skipn_all. simpl. rewrite app_nil_r. reflexivity.
Qed.
Lemma dec_enc_scalar s r : dec_scalar (enc_scalar s ++ r) = Some (s, r).
Proof.
  destruct s; cbn [enc_scalar app].
  - reflexivity.
  - cbn [dec_scalar]. rewrite dec_enc_text. reflexivity.
  - cbn [dec_scalar]. rewrite dec_enc_text. reflexivity.
  - unfold enc_Z. cbn [app dec_scalar]. destruct (Z.ltb_spec z 0).
    + rewrite N.eqb_refl, N2Z.inj_abs_N. do 3 f_equal. lia.
    + change (N.eqb 0 1) with false. cbv iota. rewrite N2Z.inj_abs_N. do 3 f_equal. lia.
Qed.
Lemma dec_many_enc {A} (dec : bytes -> option (A * bytes)) (enc : A -> bytes) l :
  (forall x r, dec (enc x ++ r) = Some (x, r)) -> dec_many dec (length l) (concat (map enc l)) = Some l.
Proof.
  intros H. induction l as [|x l IH]; simpl; [reflexivity|]. rewrite H, IH. reflexivity.
Qed.
Lemma toy_load_dumps v : toy_load (toy_dumps v) = Some v.
Proof.
  destruct v; cbn [toy_dumps toy_load]; rewrite Nat2N.id.
  - rewrite (dec_many_enc dec_scalar enc_scalar l dec_enc_scalar). reflexivity.
  - rewrite (dec_many_enc dec_pair (fun kv => enc_text (fst kv) ++ enc_text (snd kv))); [reflexivity|].
    intros [k w] r. unfold dec_pair. cbn [fst snd]. rewrite <- app_assoc, !dec_enc_text. reflexivity.
Qed.

(** ** Mail as bytes *)
Fixpoint enc_msg (m : msg) : bytes :=
  match m with
  | Msg h b =>
    N.of_nat (length h) :: concat (map (fun kv => enc_text (fst kv) ++ enc_text (snd kv)) h) ++
    match b with
    | PNone => [0%N]
    | PStr t => 1%N :: enc_text t
    | PBytes t => 2%N :: enc_text t
    | PParts l => 3%N :: N.of_nat (length l) :: (fix go l := match l with [] => [] | x :: l' => enc_msg x ++ go l' end) l
    end
  end.
Fixpoint dec_pairs (n : nat) (b : bytes) : option (list (text * text) * bytes) :=
  match n with
  | O => Some ([], b)
  | S n' => match dec_pair b with
            | Some (x, r) => match dec_pairs n' r with Some (l, r') => Some (x :: l, r') | None => None end
            | None => None end
  end.
Fixpoint dec_msg (fuel : nat) (b : bytes) : option (msg * bytes) :=
  match fuel with
  | O => None
  | S f =>
    match b with
    | [] => None
    | n :: b' =>
      match dec_pairs (N.to_nat n) b' with
      | None => None
      | Some (h, r) =>
        match r with
        | 0%N :: r' => Some (Msg h PNone, r')
        | 1%N :: r' => match dec_text r' with Some (t, r2) => Some (Msg h (PStr t), r2) | None => None end
        | 2%N :: r' => match dec_text r' with Some (t, r2) => Some (Msg h (PBytes t), r2) | None => None end
        | 3%N :: k :: r' =>
          match (fix go (n : nat) (b : bytes) : option (list msg * bytes) :=
                   match n with
                   | O => Some ([], b)
                   | S n' => match dec_msg f b with
                             | Some (x, r) => match go n' r with Some (l, r2) => Some (x :: l, r2) | None => None end
                             | None => None end
                   end) (N.to_nat k) r' with
          | Some (l, r2) => Some (Msg h (PParts l), r2)
          | None => None
          end
        | _ => None
        end
      end
    end
  end.
Definition toy_parse (b : bytes) : msg :=
  match dec_msg (S (length b)) b with
  | Some (m, []) => m
  | _ => Msg [] (PStr b)
  end.

(** ** Addresses, dates, regular expressions *)
Definition toy_parseaddr (s : text) : text :=
  match split_max 60 1 s with
  | [_; r] => strip (hd [] (split_on 62 r))
  | _ => strip s
  end.
Definition toy_pair (s : text) : text * text :=
  match split_max 60 1 s with
  | [n; r] => (strip n, strip (hd [] (split_on 62 r)))
  | _ => ([], strip s)
  end.
Definition toy_getaddresses (l : list text) : list (text * text) :=
  map toy_pair (filter nonempty (concat (map (split_on 44) l))).
Definition toy_formataddr (p : text * text) : result text :=
  let (n, a) := p in
  if is_ascii a then Ok (if nonempty n then n ++ L " <" ++ a ++ L ">" else a) else Err UnicodeError.
Definition toy_num (s : text) : option Z :=
  match s with
  | [] => None
  | c :: r =>
    let num := fold_left (fun acc d => match acc with
                 | Some z => if N.leb 48 d && N.leb d 57 then Some (10 * z + Z.of_N (d - 48))%Z else None
                 | None => None end) in
    if N.eqb c 45 then option_map Z.opp (num r (Some 0%Z)) else num s (Some 0%Z)
  end.
Definition toy_parsedate (s : text) : option (Z * option Z) :=
  match split_max 32 1 s with
  | [d] => option_map (fun z => (z, None)) (toy_num d)
  | [d; z] => match toy_num d, toy_num z with Some d, Some z => Some (d, Some z) | _, _ => None end
  | _ => None
  end.
Definition toy_re (regex s : text) : result bool :=
  if text_eqb regex (L ".*") then Ok true
  else if text_eqb regex (L "*") then Err ReError
  else Ok (startswith regex s).

(** ** gpg: a ring is a list of keys, newest first.  Key material of key K is "PUBK" *)
Record toy_key := TKey { tk_id : text; tk_uid : text; tk_sec : bool }.
Definition toy_has (opt : text) (argv : list text) : bool := mem_text opt argv.
Definition toy_line (ty : text) (k : toy_key) : text :=
  join (L ":") [ty; L "u"; L "3072"; L "1"; tk_id k; L "0"; []; []; []; tk_uid k] ++ [10%N].
Definition toy_matches (kh : text) (k : toy_key) : bool := text_eqb (tk_id k) kh || contains kh (tk_uid k).
Definition toy_ok (out err : text) : gres := GRes 0 out err.
Definition toy_fail : gres := GRes 2 [] (L "gpg: failed").
Definition toy_id (n : nat) : text := L "AAAAAAAAAAAA" ++ skipn (length (dec_N (N.of_nat n))) (L "0000") ++ dec_N (N.of_nat n).
(** [notes]: what it writes to stderr when it decrypts *)
Definition toy_gpg (notes : bytes) (r : list toy_key) (argv : list text) (inp tmp : option bytes) : list toy_key * gres :=
  let arg := last argv [] in
  if toy_has (L "--gen-key") argv then
    let id := toy_id (length r) in
    (TKey id (L "own@key") true :: r, toy_ok [] (L "gpg: key " ++ id ++ L " marked as ultimately trusted"))
  else if toy_has (L "--list-public-keys") argv then
    match filter (toy_matches arg) r with
    | [] => (r, toy_fail)
    | ks => (r, toy_ok (concat (map (toy_line (L "pub")) ks)) [])
    end
  else if toy_has (L "--list-secret-keys") argv then
    match filter (fun k => tk_sec k && toy_matches arg k) r with
    | [] => (r, toy_fail)
    | ks => (r, toy_ok (concat (map (toy_line (L "sec")) ks)) [])
    end
  else if toy_has (L "--export") argv then
    if existsb (toy_matches arg) r then (r, toy_ok (L "PUB" ++ arg) []) else (r, toy_ok [] (L "gpg: nothing exported"))
  else if toy_has (L "--export-secret-key") argv then
    if existsb (fun k => tk_sec k && toy_matches arg k) r then (r, toy_ok (L "SEC" ++ arg) []) else (r, toy_ok [] (L "gpg: nothing exported"))
  else if toy_has (L "--import") argv then
    match inp with
    | Some d =>
      if startswith (L "PUB") d && Nat.leb 19 (length d) then
        let id := skipn 3 d in
        (if existsb (toy_matches id) r then r else TKey id (L "peer <" ++ id ++ L "@key>") false :: r,
         toy_ok [] (L "gpg: key " ++ id ++ L ": imported"))
      else (r, toy_fail)
    | None => (r, toy_fail)
    end
  else if toy_has (L "--encrypt") argv then
    match inp with Some d => (r, toy_ok (L "ENC" ++ d) []) | None => (r, toy_fail) end
  else if toy_has (L "--decrypt") argv then
    match inp with
    | Some d => if startswith (L "ENC") d then (r, toy_ok (skipn 3 d) notes) else (r, toy_fail)
    | None => (r, toy_fail)
    end
  else if toy_has (L "--delete-key") argv then
    (filter (fun k => negb (text_eqb (tk_id k) arg)) r, toy_ok [] [])
  else (r, toy_fail).

(** ** The environment, for a given PATH, given files, what "gpg --version" does, notes and a clock *)
Definition toy_system (path : text) (file : text -> bool) (version : text -> gres) (notes : bytes) (clk : nat -> Z) : Env := {|
  sha256 := fun b => 104%N :: b;
  dumps := toy_dumps;
  load := toy_load;
  uni_lower := fun t => t;
  uni_alnum := fun _ => false;
  parseaddr := toy_parseaddr;
  getaddresses := toy_getaddresses;
  formataddr := toy_formataddr;
  parsedate_tz := toy_parsedate;
  mktime := fun z => Ok (z * sec)%Z;
  re_match := toy_re;
  ring := list toy_key;
  ring0 := [];
  gpg := toy_gpg notes;
  flatten := fun m => Ok (enc_msg m);
  parse_bytes := toy_parse;
  env_path := path;
  is_file := file;
  version_run := version;
  uuid_hex := fun n => L "id" ++ dec_N (N.of_nat n);
  clock := clk;
  basedir := L "/dir";
  set_order := fun l => l;
  mimetext := PStr;
  formatdate := fun z => dec_N (Z.to_N (z / sec))
|}.
Definition toy_with : bytes -> (nat -> Z) -> Env :=
  toy_system [] (fun p => text_eqb p (L "gpg")) (fun _ => GRes 0 (L "gpg (GnuPG) 2.2.40") []).
Definition toy : (nat -> Z) -> Env := toy_with [].

(** A clock that advances by a second per reading, starting at one million seconds. *)
Definition E0 : Env := toy (fun n => (1000000 + Z.of_nat n) * sec)%Z.

Lemma toy_store_laws clk : @store_laws (toy clk).
Proof.
  split.
  - exact toy_load_dumps.
  - discriminate.
Qed.
Lemma toy_no_collision clk (s : @fstate (toy clk)) : @no_collision (toy clk) s.
Proof. intros a b _ _ H. injection H. auto. Qed.

Lemma E0_clock : forall i j, @clock E0 i = @clock E0 j -> i = j.
Proof.
  intros i j H. change ((1000000 + Z.of_nat i) * sec = (1000000 + Z.of_nat j) * sec)%Z in H.
  apply Z.mul_cancel_r in H; [lia|discriminate].
Qed.

(** ** Example mails *)
Definition alice : text := L "alice@a.org".
Definition bob : text := L "bob@b.org".
Definition carol : text := L "carol@c.org".
(** key material that the toy gpg can import: 16 hex digits *)
Definition keyA : bytes := L "PUBAAAAAAAAAAAAAAAA".
Definition keyB : bytes := L "PUBBBBBBBBBBBBBBBB1".
Definition keyC : bytes := L "PUBCCCCCCCCCCCCCCCC".

Definition mail (from to date id : text) (extra : list (text * text)) : msg :=
  Msg ([(L "From", from); (L "To", to); (L "Date", date); (L "Message-Id", id)] ++ extra) (PStr (L "hello")).
