(** Directories, files and their permissions: what creating a BinGPG or a States object does
    on disk, and temporary files.  /repo/muacrypt/bingpg.py, /repo/muacrypt/states.py.

    Modelled here and not in Fs.v, because nothing else of the program depends on it.
    Simplifications: no symbolic links, one user who may do everything, no other process at
    work.  The only failures are those of the operations themselves: a directory that is not
    there or is there already, and a disk that is full.  They are OSError in Python, and
    OtherError here.  "gpg --version" changes nothing. *)
From Verif Require Import Base PyStr Env Prog Chain Gpg.

(** A path as its components, the last one first; [] is the root. *)
Definition path : Type := list text.
Fixpoint path_eqb (p q : path) : bool :=
  match p, q with
  | [], [] => true
  | c :: p', d :: q' => text_eqb c d && path_eqb p' q'
  | _, _ => false
  end.
(** as a string *)
Definition path_text (p : path) : text := flat_map (fun c => L "/" ++ c) (rev p).

Inductive node := NDir (mode : N) | NFile (mode : N) (content : bytes).
(** [d_room] is how many bytes still fit; [d_names] are the names that tempfile tries *)
Record disk := Disk { d_node : path -> option node; d_umask : N; d_room : nat; d_names : list text }.

Definition put (s : disk) (p : path) (n : option node) : disk :=
  Disk (fun q => if path_eqb q p then n else d_node s q) (d_umask s) (d_room s) (d_names s).
Definition with_room (s : disk) (k : nat) : disk := Disk (d_node s) (d_umask s) k (d_names s).
Definition there (s : disk) (p : path) : bool := match d_node s p with Some _ => true | None => false end.
Definition is_dir (s : disk) (p : path) : bool := match d_node s p with Some (NDir _) => true | _ => false end.
(** 0o777, 0o666, 0o700 and 0o600, the first two without the bits of the umask *)
Definition dir_mode (s : disk) : N := N.ldiff 511 (d_umask s).
Definition file_mode (s : disk) : N := N.ldiff 438 (d_umask s).
Definition private_dir : N := 448.
Definition private_file : N := 384.
(** tempfile.gettempdir() *)
Definition tmp_dir : path := [L "tmp"].

Inductive dop : Type -> Type :=
| DExists (p : path) : dop bool                   (* os.path.exists *)
| DMkdir (p : path) : dop (result unit)           (* os.mkdir *)
| DChmod (p : path) (mode : N) : dop (result unit)
| DOpen (p : path) : dop (result unit)            (* open(p, "w") *)
| DWrite (p : path) (b : bytes) : dop (result unit)
| DTemp : dop (result path)                       (* tempfile.NamedTemporaryFile(delete=False) *)
| DRead (p : path) : dop (result bytes)           (* open(p).read() *)
| DRemove (p : path) : dop (result unit).         (* os.remove *)

Definition dstep (X : Type) (o : dop X) (s : disk) : disk * X :=
  match o in dop X return disk * X with
  | DExists p => (s, there s p)
  | DMkdir p =>
      match p with
      | [] => (s, Err OtherError)
      | _ :: up => if is_dir s up && negb (there s p) then (put s p (Some (NDir (dir_mode s))), Ok tt) else (s, Err OtherError)
      end
  | DChmod p m =>
      match d_node s p with
      | Some (NDir _) => (put s p (Some (NDir m)), Ok tt)
      | Some (NFile _ c) => (put s p (Some (NFile m c)), Ok tt)
      | None => (s, Err OtherError)
      end
  | DOpen p =>
      match p, d_node s p with
      | [], _ | _, Some (NDir _) => (s, Err OtherError)
      | _ :: _, Some (NFile m c) => (with_room (put s p (Some (NFile m []))) (d_room s + length c), Ok tt)
      | _ :: up, None => if is_dir s up then (put s p (Some (NFile (file_mode s) [])), Ok tt) else (s, Err OtherError)
      end
  | DWrite p b =>
      match d_node s p with
      | Some (NFile m c) =>
          (with_room (put s p (Some (NFile m (c ++ firstn (d_room s) b)))) (d_room s - length b),
           if Nat.leb (length b) (d_room s) then Ok tt else Err OtherError)
      | _ => (s, Err OtherError)
      end
  | DTemp =>
      match find (fun n => negb (there s (n :: tmp_dir))) (d_names s) with
      | Some n => if is_dir s tmp_dir then (put s (n :: tmp_dir) (Some (NFile private_file [])), Ok (n :: tmp_dir)) else (s, Err OtherError)
      | None => (s, Err OtherError)
      end
  | DRead p => (s, match d_node s p with Some (NFile _ c) => Ok c | _ => Err OtherError end)
  | DRemove p =>
      match d_node s p with
      | Some (NFile _ c) => (with_room (put s p None) (d_room s + length c), Ok tt)
      | _ => (s, Err OtherError)
      end
  end.
Definition drun {A} (p : prog dop A) (s : disk) : disk * result A := run dstep p s.
(** an operation that may raise *)
Definition try_op {X} (o : dop (result X)) : prog dop X := r <- perform o ;; lift r.

Definition exists_ (p : path) : prog dop bool := perform (DExists p).

(** os.makedirs: the directories above it that are missing, then the directory *)
Fixpoint makedirs (p : path) : prog dop unit :=
  match p with
  | [] => try_op (DMkdir [])
  | _ :: up => b <- exists_ up ;; (if b then Ret tt else makedirs up) ;;; try_op (DMkdir p)
  end.

Section Disk.
Context {E : Env}.

Definition agent_conf (home : path) : path := L "gpg-agent.conf" :: home.
Definition conf_text : bytes := L "allow-loopback-pinentry" ++ [10%N].
(** bingpg.py:107-121 _ensure_init *)
Definition ensure_init (home : option path) (gpgpath : text) : prog dop unit :=
  match home with
  | None => Ret tt
  | Some h =>
    b <- exists_ h ;;
    (if b then Ret tt else makedirs h ;;; try_op (DChmod h private_dir)) ;;;
    w <- lift (wants_agent_conf gpgpath) ;;
    if w then
      b' <- exists_ ((agent_conf h)) ;;
      if b' then Ret tt else try_op (DOpen (agent_conf h)) ;;; try_op (DWrite (agent_conf h) conf_text)
    else Ret tt
  end.
(** bingpg.py:66-84 BinGPG.__init__ *)
Definition new_bingpg (home : option path) (gpgbin : text) : prog dop bingpg :=
  match find_executable gpgbin with
  | None => Raise ValueError
  | Some p => ensure_init home p ;;; Ret (BinGPG (option_map path_text home) p)
  end.

(** states.py:32-38 States.__init__ *)
Definition new_states (dir : path) : prog dop unit :=
  b <- exists_ ((L "blocks" :: dir)) ;;
  if b then Ret tt else makedirs (L "blocks" :: dir).

(** bingpg.py:130-137 temp_written_file around [body]; what os.remove raises replaces what the
    body raised *)
Definition temp_written_file {A} (data : bytes) (body : path -> prog dop A) : prog dop A :=
  f <- try_op DTemp ;;
  try_op (DWrite f data) ;;;
  r <- catch (x <- body f ;; Ret (Ok x)) (fun e => Some (Ret (Err e))) ;;
  try_op (DRemove f) ;;;
  lift r.

(** bingpg.py:203-224, the temporary file of gen_secret_key: [runs] tells whether gpg succeeds
    on what is in the file.  The answer is the extrainfo of the InvocationFailure, if any. *)
Definition key_in_file (spec : bytes) (runs : bytes -> bool) : prog dop (option bytes) :=
  temp_written_file spec (fun f =>
    c <- try_op (DRead f) ;;
    if runs c then Ret None else c' <- try_op (DRead f) ;; Ret (Some c')).
End Disk.

(** A process that dies after any of its operations, or in the middle of a write. *)
Definition dtorn {X} (o : dop X) (s s' : disk) : Prop :=
  match o with
  | DWrite p b => exists m c x y, d_node s p = Some (NFile m c) /\ b = x ++ y /\ length x <= d_room s /\
      s' = with_room (put s p (Some (NFile m (c ++ x)))) (d_room s - length x)
  | _ => False
  end.
Fixpoint dcrash {A} (p : prog dop A) (s s' : disk) : Prop :=
  s' = s \/
  match p with
  | Vis o k => dtorn o s s' \/ dcrash (k (snd (dstep _ o s))) (fst (dstep _ o s)) s'
  | _ => False
  end.
