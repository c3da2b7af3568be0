(** /repo/muacrypt/bingpg.py: the methods of BinGPG that no other module of the program uses.
    A file of temp_written_file is the fourth argument of the command here; see also Disk.v. *)
From Verif Require Import Base PyStr Env Prog Chain Gpg.

(** (type, value, lines) *)
Definition packet : Type := text * text * list text.
(** what comes before and after the first occurrence of a character: str.find and slices *)
Fixpoint cut_at (c : N) (s : text) : option (text * text) :=
  match s with
  | [] => None
  | x :: s' => if N.eqb x c then Some ([], s')
               else match cut_at c s' with Some (a, b) => Some (x :: a, b) | None => None end
  end.
(** bingpg.py:285-308, the loop of list_packets and what follows it.  [packets] and [lines] are
    in reverse order. *)
Fixpoint packet_loop (packets : list packet) (lines : list text) (last : option (text * text)) (raw : list text) : result (list packet) :=
  match raw with
  | [] =>
    match last with
    | Some (t, v) => Ok (rev ((t, v, rev lines) :: packets))
    | None => Err TypeError
    end
  | rawline :: raw' =>
    let line := strip rawline in
    if startswith (L "#") line then packet_loop packets lines last raw'
    else if startswith (L ":") line then
      match cut_at 58 (tl line) with
      | Some (ptype, rest) =>
        match last with
        | Some (t, v) => packet_loop ((t, v, rev lines) :: packets) [] (Some (ptype, strip rest)) raw'
        | None => packet_loop packets lines (Some (ptype, strip rest)) raw'
        end
      | None => packet_loop packets lines last raw'
      end
    else
      match last with
      | Some _ => packet_loop packets (line :: lines) last raw'
      | None => Err AssertionError
      end
  end.
Definition packets_of (out : text) : result (list packet) := packet_loop [] [] None (splitlines out).

(** bingpg.py:42-59 InvocationFailure.__str__.  If gpg was to write bytes, [out] is what str()
    makes of them. *)
Definition dec_Z (z : Z) : text := match z with Z0 => L "0" | Zpos p => dec_N (Npos p) | Zneg p => L "-" ++ dec_N (Npos p) end.
Definition failure_text (ret : Z) (cmd out err : text) (extrainfo : option text) : text :=
  let indented t := map (fun l => L "  " ++ l) (splitlines t) in
  join [10%N] ([L "GPG Command '" ++ cmd ++ L "' retcode=" ++ dec_Z ret] ++
    [L "stdout:"] ++ indented out ++ [L "stderr:"] ++ indented err ++
    match extrainfo with Some x => if nonempty x then [x] else [] | None => [] end).

Section GpgMore.
Context {E : Env}.

(** bingpg.py:283-308 list_packets, 277-281 of a key *)
Definition list_packets (g : bingpg) (keydata : bytes) : prog cop (list packet) :=
  '(out, _) <- gpg_outerr g [L "--list-packets"] (Some keydata) None false true ;;
  lift (packets_of out).
Definition list_secret_key_packets (g : bingpg) (kh : text) : prog cop (list packet) :=
  k <- get_secret_keydata g kh false ;; list_packets g k.
Definition list_public_key_packets (g : bingpg) (kh : text) : prog cop (list packet) :=
  k <- get_public_keydata g kh false ;; list_packets g k.

(** bingpg.py:196-201 supports_eddsa *)
Definition supports_eddsa (path : text) : result bool :=
  rbind (version_info path) (fun out =>
    match find (startswith (L "Pubkey:")) (split_on 10 out) with
    | Some l => Ok (existsb (fun x => text_eqb (lower (strip x)) (L "eddsa")) (split_on 44 (nth 1 (split_max 58 1 l) [])))
    | None => Ok false
    end).

(** bingpg.py:333-335 sign, 337-340 verify *)
Definition gpg_sign (g : bingpg) (data : bytes) (kh : text) : prog cop bytes :=
  version_known g ;;;
  '(out, _) <- gpg_outerr g (nopassphrase g ++ [L "--detach-sign"; L "-u"; kh]) (Some data) None false false ;;
  Ret out.
Definition gpg_verify (g : bingpg) (data signature : bytes) : prog cop text :=
  '(_, err) <- gpg_outerr g [L "--verify"; L "<tmpfile>"; L "-"] (Some data) (Some signature) false true ;;
  find_keyhandle g err.

(** bingpg.py:123-128 killagent; without the program Popen raises TypeError *)
Definition killagent (g : bingpg) : prog cop unit :=
  b <- lift (isgpg2 (gp_path g)) ;;
  if b then
    match find_executable (L "gpg-connect-agent") with
    | Some p => perform (CGpg ([p; L "--no-autostart"] ++ homedirflags g ++ [L "KILLAGENT"]) None None) ;;; Ret tt
    | None => Raise TypeError
    end
  else Ret tt.
End GpgMore.
