(** /repo/muacrypt/chainstore.py: the chain operations implemented by operations on files:
    one heads file and one file per block, named by the SHA-256 of its content. *)
From Verif Require Import Base PyStr Env Prog Chain.

(** File-level operations.  Opening a file "wb" truncates it (or creates it empty) and is a
    separate operation from writing and closing it, so that crashes in between can be
    described.  A read returns None if the file does not exist.  The content given to FOpenBlock
    is a ghost: it only records what is going to be written. *)
Inductive fop : Type -> Type :=
| FTime : fop Z
| FUuid : fop text
| FGpg (argv : list text) (inp tmp : option bytes) : fop gres
| FReadHeads : fop (option bytes)
| FOpenHeads : fop unit
| FWriteHeads (b : bytes) : fop unit
| FReadBlock (cid : text) : fop (option bytes)
| FOpenBlock (cid : text) (b : bytes) : fop unit
| FWriteBlock (cid : text) (b : bytes) : fop unit
| FCountBlocks : fop nat    (* number of block files; only used to bound the walk below *)
| FRmTree : fop unit.

Section Fs.
Context {E : Env}.

Record fstate := FState {
  f_heads : option bytes;
  f_blocks : dict bytes;
  f_rings : dict ring;
  f_tick : nat;
  f_uuid : nat;
  f_trace : list gcall;
  f_written : list bytes   (* ghost: every block content of which writing was ever begun *)
}.

Definition fs0 : fstate := FState None [] [] 0 0 [] [].

Definition set_heads (s : fstate) (h : option bytes) : fstate :=
  FState h (f_blocks s) (f_rings s) (f_tick s) (f_uuid s) (f_trace s) (f_written s).

Definition fstep {X} (o : fop X) : fstate -> fstate * X :=
  match o in fop X return fstate -> fstate * X with
  | FTime => fun s =>
      (FState (f_heads s) (f_blocks s) (f_rings s) (S (f_tick s)) (f_uuid s) (f_trace s) (f_written s),
       clock (f_tick s))
  | FUuid => fun s =>
      (FState (f_heads s) (f_blocks s) (f_rings s) (f_tick s) (S (f_uuid s)) (f_trace s) (f_written s),
       uuid_hex (f_uuid s))
  | FGpg argv inp tmp => fun s =>
      let h := argv_home argv in
      let (r', res) := gpg (ring_at (f_rings s) h) argv inp tmp in
      (FState (f_heads s) (f_blocks s) (dset (f_rings s) h r') (f_tick s) (f_uuid s)
              (GCall h argv inp tmp :: f_trace s) (f_written s), res)
  | FReadHeads => fun s => (s, f_heads s)
  | FOpenHeads => fun s => (set_heads s (Some []), tt)
  | FWriteHeads b => fun s => (set_heads s (Some b), tt)
  | FReadBlock cid => fun s => (s, dget (f_blocks s) cid)
  | FOpenBlock cid b => fun s =>
      (FState (f_heads s) (dset (f_blocks s) cid []) (f_rings s) (f_tick s) (f_uuid s) (f_trace s)
              (b :: f_written s), tt)
  | FWriteBlock cid b => fun s =>
      (FState (f_heads s) (dset (f_blocks s) cid b) (f_rings s) (f_tick s) (f_uuid s) (f_trace s)
              (f_written s), tt)
  | FCountBlocks => fun s => (s, length (f_blocks s))
  | FRmTree => fun s =>
      (FState None [] (dremove_if nonempty (f_rings s)) (f_tick s) (f_uuid s) (f_trace s) (f_written s), tt)
  end.

Definition frun {A} (p : prog fop A) (s : fstate) : fstate * result A := run (@fstep) p s.

(** chainstore.py:99-107 HeadTracker._getheads (without prefix) *)
Definition getheads : prog fop (dict text) :=
  b <- perform FReadHeads ;;
  match b with
  | None => Ret []
  | Some c =>
    match load c with
    | Some (PyDict d) => Ret d
    | Some _ => Raise AttributeError
    | None => Raise LoadError
    end
  end.

(** chainstore.py:56-62 Block.__init__: type, parent_cid, timestamp, args *)
Record fblock := FBlock { fb_tag : text; fb_parent : option text; fb_time : Z; fb_args : list scalar }.
Definition block_of (v : pyval) : option fblock :=
  match v with
  | PyList (SStr tag :: SNone :: SFloat t :: args) => Some (FBlock tag None t args)
  | PyList (SStr tag :: SStr p :: SFloat t :: args) => Some (FBlock tag (Some p) t args)
  | _ => None
  end.

(** chainstore.py:39-45 get_block: the content is not checked against its name.  A file that
    is not a block of the expected shape raises (the exact exception is not modelled). *)
Definition get_block (cid : text) : prog fop (option fblock) :=
  b <- perform (FReadBlock cid) ;;
  match b with
  | None => Ret None
  | Some c =>
    match load c with
    | None => Raise LoadError
    | Some v => match block_of v with Some fb => Ret (Some fb) | None => Raise TypeError end
    end
  end.

(** chainstore.py:64-77 Block.parent and Block.__iter__, with 175-183 Chain.iter_entries.
    The Python generator is lazy: readers that stop at the first hit do not look at older
    blocks.  The model reads the whole chain; on an intact store this makes no difference.
    A cyclic chain makes the Python loop run forever; here the fuel runs out. *)
Fixpoint walk (fuel : nat) (cid : text) : prog fop (list block) :=
  match fuel with
  | O => Raise Diverges
  | S f =>
    b <- get_block cid ;;
    match b with
    | None => Ret []
    | Some fb =>
      match entry_of (fb_tag fb) (fb_args fb) with
      | None => Raise TypeError
      | Some e =>
        rest <- match fb_parent fb with
                | Some p => if nonempty p then walk f p else Ret []
                | None => Ret []
                end ;;
        Ret (Block (fb_time fb) e :: rest)
      end
    end
  end.

(** chainstore.py:95-97 get_head_cid, 151-154 get_head_block, 135-141 iter_blocks *)
Definition read_chain (n : text) : prog fop (list block) :=
  heads <- getheads ;;
  match dget heads n with
  | Some cid => if nonempty cid then (k <- perform FCountBlocks ;; walk (S k) cid) else Ret []
  | None => Ret []
  end.

(** the list that is serialised at chainstore.py:31 *)
Definition block_data (e : entry) (parent : option text) (t : Z) : pyval :=
  PyList (SStr (tag_of e) :: match parent with Some p => SStr p | None => SNone end
          :: SFloat t :: args_of e).

(** chainstore.py:27-37 store_block *)
Definition store_block (e : entry) (parent : option text) : prog fop text :=
  t <- perform FTime ;;
  let serialized := dumps (block_data e parent t) in
  let cid := sha256 serialized in
  perform (FOpenBlock cid serialized) ;;;
  perform (FWriteBlock cid serialized) ;;;
  Ret cid.

(** chainstore.py:115-121 upsert *)
Definition upsert (n cid : text) : prog fop unit :=
  heads <- getheads ;;
  perform FOpenHeads ;;;
  perform (FWriteHeads (dumps (PyDict (dset heads n cid)))).

(** chainstore.py:143-149 new_head_block, 171-173 append_entry *)
Definition head_parent (n : text) : prog fop (option text) :=
  heads <- getheads ;;
  match dget heads n with
  | Some cid =>
    if nonempty cid then
      b <- get_block cid ;;
      Ret (match b with Some _ => Some cid | None => None end)
    else Ret None
  | None => Ret None
  end.
Definition append_entry (n : text) (e : entry) : prog fop unit :=
  parent <- head_parent n ;;
  cid <- store_block e parent ;;
  upsert n cid.

(** chainstore.py:109-113 remove_if *)
Definition remove_if (f : text -> bool) : prog fop unit :=
  heads <- getheads ;;
  perform FOpenHeads ;;;
  perform (FWriteHeads (dumps (PyDict (dremove_if f heads)))).

(** The implementation of every chain operation by files. *)
Definition impl {X} (o : cop X) : prog fop X :=
  match o in cop X return prog fop X with
  | CTime => perform FTime
  | CUuid => perform FUuid
  | CRead n => read_chain n
  | CAppend n e => append_entry n e
  | CHeads => heads <- getheads ;; Ret (dkeys heads)
  | CRemoveIf f => remove_if f
  | CRmTree => perform FRmTree
  | CGpg argv inp tmp => perform (FGpg argv inp tmp)
  end.

(** A program of the layers above, run on files. *)
Definition on_files {A} (p : prog cop A) : prog fop A := expand (@impl) p.

End Fs.
