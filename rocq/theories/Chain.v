(** Entries of the append-only chains and the abstract ("ideal log") interpretation of the
    chain operations.  The file-level implementation is in Fs.v, the refinement in Refine.v. *)
From Verif Require Import Base PyStr Env Prog.

(** * Entry classes *)

(** /repo/muacrypt/states.py:87-94 MsgEntry (TAG "msg") *)
Record msg_entry := MsgEntry {
  me_id : text; me_date : Z; me_pref : text; me_keydata : bytes; me_kh : text }.
(** states.py:97-103 MsgGossipEntry (TAG "mge") *)
Record gossip_entry := GossipEntry {
  ge_id : text; ge_date : Z; ge_keydata : bytes; ge_kh : text }.
(** states.py:246-250 KeygenEntry (TAG "keygen").  The validators also admit None for both
    fields; the only writer (append_keygen via Account.create) never passes None. *)
Record keygen_entry := KeygenEntry { kg_keydata : bytes; kg_kh : text }.
(** states.py:259-266 OwnConfigEntry (TAG "cfg") *)
Record cfg_entry := CfgEntry {
  cf_pref : text; cf_name : text; cf_regex : text; cf_mode : text; cf_bin : text }.
(** states.py:324-329 VerificationEntry (TAG "oobverify") *)
Record verif_entry := VerifEntry { ve_addr : text; ve_pk : bytes; ve_origin : text }.
(** states.py:361-364 AConfigEntry (TAG "acfg") *)
Record acfg_entry := ACfgEntry { ac_version : text }.

Inductive entry :=
| EMsg (e : msg_entry)
| EGossip (e : gossip_entry)
| EKeygen (e : keygen_entry)
| ECfg (e : cfg_entry)
| EVerif (e : verif_entry)
| EACfg (e : acfg_entry).

(** A block of a chain as seen through the API: creation time and entry
    (chainstore.py:48-62; the content address and parent link are file-level). *)
Record block := Block { bl_time : Z; bl_entry : entry }.

(** ** attr.astuple(entry) and entry.TAG (chainstore.py:171-173), and the way back through
    entryclass( *block.args) with its validators (chainstore.py:175-183). *)
Definition tag_of (e : entry) : text :=
  match e with
  | EMsg _ => L "msg" | EGossip _ => L "mge" | EKeygen _ => L "keygen"
  | ECfg _ => L "cfg" | EVerif _ => L "oobverify" | EACfg _ => L "acfg"
  end.

Definition args_of (e : entry) : list scalar :=
  match e with
  | EMsg (MsgEntry i d p k h) => [SStr i; SFloat d; SStr p; SBytes k; SStr h]
  | EGossip (GossipEntry i d k h) => [SStr i; SFloat d; SBytes k; SStr h]
  | EKeygen (KeygenEntry k h) => [SBytes k; SStr h]
  | ECfg (CfgEntry p n r m b) => [SStr p; SStr n; SStr r; SStr m; SStr b]
  | EVerif (VerifEntry a k o) => [SStr a; SBytes k; SStr o]
  | EACfg (ACfgEntry v) => [SStr v]
  end.

Definition entry_of (tag : text) (args : list scalar) : option entry :=
  if text_eqb tag (L "msg") then
    match args with
    | [SStr i; SFloat d; SStr p; SBytes k; SStr h] => Some (EMsg (MsgEntry i d p k h))
    | _ => None end
  else if text_eqb tag (L "mge") then
    match args with
    | [SStr i; SFloat d; SBytes k; SStr h] => Some (EGossip (GossipEntry i d k h))
    | _ => None end
  else if text_eqb tag (L "keygen") then
    match args with [SBytes k; SStr h] => Some (EKeygen (KeygenEntry k h)) | _ => None end
  else if text_eqb tag (L "cfg") then
    match args with
    | [SStr p; SStr n; SStr r; SStr m; SStr b] => Some (ECfg (CfgEntry p n r m b))
    | _ => None end
  else if text_eqb tag (L "oobverify") then
    match args with [SStr a; SBytes k; SStr o] => Some (EVerif (VerifEntry a k o)) | _ => None end
  else if text_eqb tag (L "acfg") then
    match args with [SStr v] => Some (EACfg (ACfgEntry v)) | _ => None end
  else None.

Lemma entry_of_args e : entry_of (tag_of e) (args_of e) = Some e.
Proof. destruct e as [[]|[]|[]|[]|[]|[]]; reflexivity. Qed.

(** * Chain operations: all effects of the program above the chain store *)
Inductive cop : Type -> Type :=
| CTime : cop Z                                   (* time.time() *)
| CUuid : cop text                                (* uuid.uuid4().hex *)
| CRead (n : text) : cop (list block)             (* chain n from head to root *)
| CAppend (n : text) (e : entry) : cop unit       (* chain n .append_entry(e) *)
| CHeads : cop (list text)                        (* names of all chains *)
| CRemoveIf (f : text -> bool) : cop unit         (* HeadTracker.remove_if *)
| CRmTree : cop unit                              (* shutil.rmtree(dir); States(dir) *)
| CGpg (argv : list text) (inp tmp : option bytes) : cop gres.

(** One gpg process in the trace: which ring, which arguments, which stdin / temp file. *)
Record gcall := GCall { gc_home : text; gc_argv : list text; gc_in : option bytes; gc_tmp : option bytes }.

(** The ring a command line addresses: [gpgpath --batch --homedir D ...], otherwise the
    user's system ring, written [] (bingpg.py:139-141,165). *)
Definition argv_home (argv : list text) : text :=
  match argv with
  | _ :: _ :: f :: d :: _ => if text_eqb f (L "--homedir") then d else []
  | _ => []
  end.

Section Abstract.
Context {E : Env}.

(** Abstract state of one account-manager directory plus the outside world it touches. *)
Record ast := AState {
  a_logs : dict (list block);   (* chain name -> blocks, newest first *)
  a_rings : dict ring;          (* gpg home -> key ring *)
  a_tick : nat;                 (* how often the clock was read *)
  a_uuid : nat;
  a_trace : list gcall          (* gpg processes, newest first *)
}.

Definition alog (s : ast) (n : text) : list block :=
  match dget (a_logs s) n with Some l => l | None => [] end.
Definition ring_at (rs : dict ring) (h : text) : ring :=
  match dget rs h with Some r => r | None => ring0 end.

Definition astep {X} (o : cop X) : ast -> ast * X :=
  match o in cop X return ast -> ast * X with
  | CTime => fun s =>
      (AState (a_logs s) (a_rings s) (S (a_tick s)) (a_uuid s) (a_trace s), clock (a_tick s))
  | CUuid => fun s =>
      (AState (a_logs s) (a_rings s) (a_tick s) (S (a_uuid s)) (a_trace s), uuid_hex (a_uuid s))
  | CRead n => fun s => (s, alog s n)
  | CAppend n e => fun s =>
      (AState (dset (a_logs s) n (Block (clock (a_tick s)) e :: alog s n))
              (a_rings s) (S (a_tick s)) (a_uuid s) (a_trace s), tt)
  | CHeads => fun s => (s, dkeys (a_logs s))
  | CRemoveIf f => fun s =>
      (AState (dremove_if f (a_logs s)) (a_rings s) (a_tick s) (a_uuid s) (a_trace s), tt)
  | CRmTree => fun s =>
      (AState [] (dremove_if nonempty (a_rings s)) (a_tick s) (a_uuid s) (a_trace s), tt)
  | CGpg argv inp tmp => fun s =>
      let h := argv_home argv in
      let (r', res) := gpg (ring_at (a_rings s) h) argv inp tmp in
      (AState (a_logs s) (dset (a_rings s) h r') (a_tick s) (a_uuid s)
              (GCall h argv inp tmp :: a_trace s), res)
  end.

Definition arun {A} (p : prog cop A) (s : ast) : ast * result A := run (@astep) p s.

(** The state of a fresh directory. *)
Definition ast0 : ast := AState [] [] 0 0 [].

End Abstract.
