(** /repo/muacrypt/chainstore.py: reading chains block by block.  Fs.v reads a chain as a whole;
    the code stops reading at the first block it is looking for, which matters if older block
    files are damaged.  Also the methods that nothing else uses. *)
From Verif Require Import Base PyStr Env Prog Chain Fs.

Section Reader.
Context {E : Env}.

(** chainstore.py:64-77 Block.parent, Block.__iter__: a loop over the blocks from [cid] on that
    is left at the first block for which [f] gives something, or raises.  As in Fs.v a chain
    with a cycle, on which the loop never ends, makes the fuel run out. *)
Fixpoint scan {A} (f : text -> fblock -> result (option A)) (fuel : nat) (cid : text) : prog fop (option A) :=
  match fuel with
  | O => Raise Diverges
  | S k =>
    b <- get_block cid ;;
    match b with
    | None => Ret None
    | Some fb =>
      x <- lift (f cid fb) ;;
      match x with
      | Some a => Ret (Some a)
      | None =>
        match fb_parent fb with
        | Some p => if nonempty p then scan f k p else Ret None
        | None => Ret None
        end
      end
    end
  end.

(** chainstore.py:95-97 get_head_cid, 151-154 get_head_block, 135-141 iter_blocks *)
Definition scan_chain {A} (f : text -> fblock -> result (option A)) (n : text) : prog fop (option A) :=
  heads <- getheads ;;
  match dget heads n with
  | Some cid => if nonempty cid then (k <- perform FCountBlocks ;; scan f (S k) cid) else Ret None
  | None => Ret None
  end.

(** What is looked for (states.py): 293-294 and 372-373 _latest_config, 290-291 _latest_keygen,
    161-163 _latest_msg_entry, 151-155 _latest_ac_entry, 157-159 latest_gossip_entry, 168-172
    get_message_entry with either class, 337-340 get_verification *)
Inductive reader :=
| RConfig | RKeygen | RMsg | RAc | RMsgId (id : text) | RGossip | RGossipId (id : text) | RVerif (addr : text) | RVersion.
Definition reader_tag (r : reader) : text :=
  match r with
  | RConfig => L "cfg" | RKeygen => L "keygen" | RMsg | RAc | RMsgId _ => L "msg" | RGossip | RGossipId _ => L "mge"
  | RVerif _ => L "oobverify" | RVersion => L "acfg"
  end.
Definition accepts (r : reader) (e : entry) : bool :=
  match r, e with
  | RConfig, ECfg _ | RKeygen, EKeygen _ | RMsg, EMsg _ | RGossip, EGossip _ | RVersion, EACfg _ => true
  | RAc, EMsg x => nonempty (me_keydata x)
  | RMsgId id, EMsg x => text_eqb (me_id x) id
  | RGossipId id, EGossip x => text_eqb (ge_id x) id
  | RVerif a, EVerif x => text_eqb a (ve_addr x)
  | _, _ => false
  end.

(** chainstore.py:175-187 iter_entries, latest_entry_of: only blocks with the tag of the class
    are made into entries.  Arguments that the class does not take raise; which exception is
    not modelled. *)
Definition read_first (r : reader) (n : text) : prog fop (option entry) :=
  scan_chain (fun _ fb =>
    if text_eqb (fb_tag fb) (reader_tag r) then
      match entry_of (fb_tag fb) (fb_args fb) with
      | Some e => Ok (if accepts r e then Some e else None)
      | None => Err TypeError
      end
    else Ok None) n.

(** list(block): all blocks from [cid] on, with their names *)
Fixpoint all_blocks (fuel : nat) (cid : text) : prog fop (list (text * fblock)) :=
  match fuel with
  | O => Raise Diverges
  | S k =>
    b <- get_block cid ;;
    match b with
    | None => Ret []
    | Some fb =>
      rest <- match fb_parent fb with
              | Some p => if nonempty p then all_blocks k p else Ret []
              | None => Ret []
              end ;;
      Ret ((cid, fb) :: rest)
    end
  end.
Definition chain_blocks (n : text) : prog fop (list (text * fblock)) :=
  heads <- getheads ;;
  match dget heads n with
  | Some cid => if nonempty cid then (k <- perform FCountBlocks ;; all_blocks (S k) cid) else Ret []
  | None => Ret []
  end.
(** chainstore.py:168-169 Chain.__len__ *)
Definition chain_len (n : text) : prog fop nat := l <- chain_blocks n ;; Ret (length l).
(** chainstore.py:79-82 Block.contains_cid, of the head block; without one there is nothing to
    ask.  None counts as False. *)
Definition contains_cid (n cid : text) : prog fop bool :=
  r <- scan_chain (fun c _ => Ok (if text_eqb c cid then Some tt else None)) n ;;
  Ret (match r with Some _ => true | None => false end).
(** chainstore.py:84-87 Block.get_last_parent, of the head block *)
Definition last_parent (n : text) : prog fop (option (text * fblock)) :=
  l <- chain_blocks n ;; Ret (hd_error (rev l)).

(** chainstore.py:190-194 shortrepr; the argument is what repr gives *)
Definition shortrepr (r : text) : text :=
  if (50 <? length r)%nat then firstn 23 r ++ L "..." ++ skipn (length r - 23) r else r.
(** chainstore.py:130-133 dump: the lines as (timestamp, type, arguments); how a float and a
    list are written is a parameter, and so is what pprint makes of the line.  Without a head
    block the code raises TypeError. *)
Definition dump (rep : list scalar -> text) (n : text) : prog fop (list (Z * text * text)) :=
  l <- chain_blocks n ;;
  match l with
  | [] => Raise TypeError
  | _ => Ret (map (fun x => (fb_time (snd x), fb_tag (snd x), shortrepr (rep (fb_args (snd x))))) (rev l))
  end.
End Reader.
