(** C77: logs read block by block, and missing or damaged block files.  Statements only; proofs
    are in ReaderProofs.v, the vocabulary is in ReaderSpec.v. *)
From Verif Require Import Base PyStr Base64 Env Prog Chain Gpg Mime States Recommendation Account Cmdline Bot Fs Api Spec Refine Reader ReaderSpec
  ReaderProofs Toy Demo PropsStore.

(** ** C77 *)
(** Reading with an early stop finds the newest entry that is looked for among all that were
    appended, and changes nothing. *)
Theorem C77_readers : forall (E : Env), store_laws -> forall h n r, no_collision (files_after h) ->
  frun (read_first r n) (files_after h) = (files_after h, Ok (find (accepts r) (map bl_entry (logged h n)))).
Proof. exact @c77_readers. Qed.
Print Assumptions C77_readers.
(** These are the values that the rest of the model takes from the whole log. *)
Theorem C77_accessors : forall l : list block, let first r := find (accepts r) (map bl_entry l) in
  first RConfig = option_map ECfg (latest_config l) /\
  first RKeygen = option_map EKeygen (latest_keygen l) /\
  first RMsg = option_map EMsg (latest_msg_entry l) /\
  first RAc = option_map EMsg (latest_ac_entry l) /\
  (forall id, first (RMsgId id) = option_map EMsg (get_message_entry l id)) /\
  first RGossip = option_map EGossip (latest_gossip_entry l) /\
  (forall id, first (RGossipId id) = option_map EGossip (get_gossip_message_entry l id)) /\
  (forall a, first (RVerif a) = option_map EVerif (find (fun e => text_eqb a (ve_addr e)) (verif_entries l))) /\
  first RVersion = option_map EACfg (hd_error (acfg_entries l)).
Proof. exact @c77_accessors. Qed.
Print Assumptions C77_accessors.
(** An entry among the newest is found whatever happens to the older block files. *)
Theorem C77_newest : forall (E : Env), store_laws -> forall h n r i s' e, no_collision (files_after h) ->
  newest_kept i n (files_after h) s' -> find (accepts r) (map bl_entry (firstn i (logged h n))) = Some e ->
  frun (read_first r n) s' = (s', Ok (find (accepts r) (map bl_entry (logged h n)))).
Proof. exact @c77_newest. Qed.
Print Assumptions C77_newest.
(** A block file that is missing ends the log, without an error. *)
Theorem C77_missing : forall (E : Env), store_laws -> forall h n r i s' c, no_collision (files_after h) ->
  newest_kept i n (files_after h) s' -> nth_error (log_files (files_after h) n) i = Some c -> dget (f_blocks s') c = None ->
  frun (read_first r n) s' = (s', Ok (find (accepts r) (map bl_entry (firstn i (logged h n))))).
Proof. exact @c77_missing. Qed.
Print Assumptions C77_missing.
(** One that cannot be read is an error, but only for those who look that far back. *)
Theorem C77_unreadable : forall (E : Env), store_laws -> forall h n r i s' c b, no_collision (files_after h) ->
  newest_kept i n (files_after h) s' -> nth_error (log_files (files_after h) n) i = Some c -> dget (f_blocks s') c = Some b -> load b = None ->
  frun (read_first r n) s' =
    (s', match find (accepts r) (map bl_entry (firstn i (logged h n))) with Some e => Ok (Some e) | None => Err LoadError end).
Proof. exact @c77_unreadable. Qed.
Print Assumptions C77_unreadable.
(** Another block in the place of one: if it is of another class it is passed over, if it is of
    the class that is looked for it counts, or is an error if it does not have the arguments of
    that class; but only for those who look that far back. *)
Theorem C77_replaced : forall (E : Env), store_laws -> forall h n r i s' c b tag t args, no_collision (files_after h) -> let cs := log_files (files_after h) n in
  f_heads s' = f_heads (files_after h) -> (forall x, In x cs -> x <> c -> dget (f_blocks s') x = dget (f_blocks (files_after h)) x) ->
  nth_error cs i = Some c -> dget (f_blocks s') c = Some b ->
  load b = Some (PyList (SStr tag :: match nth_error cs (S i) with Some q => SStr q | None => SNone end :: SFloat t :: args)) ->
  let newer := map bl_entry (firstn i (logged h n)) in let older := map bl_entry (skipn (S i) (logged h n)) in
  frun (read_first r n) s' =
    (s', match find (accepts r) newer with
         | Some e => Ok (Some e)
         | None =>
           if text_eqb tag (reader_tag r) then
             match entry_of tag args with
             | Some e => Ok (if accepts r e then Some e else find (accepts r) older)
             | None => Err TypeError
             end
           else Ok (find (accepts r) older)
         end).
Proof. exact @c77_replaced. Qed.
Print Assumptions C77_replaced.
(** What the files of a log hold, its length, its files, its oldest block and its dump *)
Theorem C77_files : forall (E : Env), store_laws -> forall h n, no_collision (files_after h) ->
  let s := files_after h in let cs := log_files s n in let l := logged h n in
  length cs = length l /\ NoDup cs /\
  (forall i c b, nth_error cs i = Some c -> nth_error l i = Some b ->
     dget (f_blocks s) c = Some (dumps (block_data (bl_entry b) (nth_error cs (S i)) (bl_time b)))) /\
  (forall i, newest_kept i n s s) /\
  frun (chain_len n) s = (s, Ok (length l)) /\
  (forall c, frun (contains_cid n c) s = (s, Ok (mem_text c cs))) /\
  (forall rep, frun (dump rep n) s =
     (s, match l with [] => Err TypeError | _ => Ok (map (fun b => (bl_time b, tag_of (bl_entry b), shortrepr (rep (args_of (bl_entry b))))) (rev l)) end)) /\
  match rev (combine cs l) with
  | [] => frun (last_parent n) s = (s, Ok None)
  | (c, b) :: _ => frun (last_parent n) s = (s, Ok (Some (c, FBlock (tag_of (bl_entry b)) None (bl_time b) (args_of (bl_entry b)))))
  end.
Proof. exact @c77_files. Qed.
Print Assumptions C77_files.
(** In a dump long values are shortened in the middle. *)
Theorem C77_shortrepr : forall r, shortrepr r = r /\ (length r <= 50)%nat \/
  (50 < length r)%nat /\ length (shortrepr r) = 49%nat /\
  exists m, r = firstn 23 r ++ m ++ skipn (length r - 23) r /\ shortrepr r = firstn 23 r ++ L "..." ++ skipn (length r - 23) r.
Proof. exact @c77_shortrepr. Qed.
Print Assumptions C77_shortrepr.
(** If the newest block file is lost, the next entry begins the log anew: the older block files
    are all there, but nothing leads to them any more. *)
Theorem C77_restart : forall (E : Env), store_laws -> forall h n s' c e, no_collision (files_after h) ->
  f_heads s' = f_heads (files_after h) -> hd_error (log_files (files_after h) n) = Some c -> dget (f_blocks s') c = None ->
  let s2 := fst (frun (append_entry n e) s') in
  snd (frun (append_entry n e) s') = Ok tt /\ reads s2 n = Ok [Block (clock (f_tick s')) e].
Proof. exact @c77_restart. Qed.
Print Assumptions C77_restart.

#[local] Existing Instance E0.
(** the state after [demo], without the i-th newest block file of bob's log *)
Definition without (s : fstate) (i : nat) : fstate :=
  FState (f_heads s) (filter (fun x => negb (match nth_error (log_files s peer_a_bob) i with Some c => text_eqb c (fst x) | None => false end)) (f_blocks s))
    (f_rings s) (f_tick s) (f_uuid s) (f_trace s) (f_written s).
Lemma without_heads s i : f_heads (without s i) = f_heads s.
Proof. reflexivity. Qed.
Definition without_file (i : nat) : fstate := without (files_after demo) i.
Definition lost_file (i : nat) : option text := nth_error (log_files (files_after demo) peer_a_bob) i.
Definition found_in (s : fstate) (r : reader) : option (option entry) :=
  match snd (frun (read_first r peer_a_bob) s) with Ok x => Some x | Err _ => None end.
Definition is_some {A} (x : option A) : bool := match x with Some _ => true | None => false end.
Lemma kept_b i n s s' : f_heads s' = f_heads s ->
  forallb (fun c => match dget (f_blocks s') c, dget (f_blocks s) c with Some x, Some y => text_eqb x y | _, _ => false end)
    (firstn i (log_files s n)) = true -> newest_kept i n s s'.
Proof.
  intros Hh H. split; [exact Hh|]. intros c Hc. rewrite forallb_forall in H. specialize (H c Hc).
  destruct (dget (f_blocks s') c), (dget (f_blocks s) c); try discriminate H. apply text_eqb_eq in H. rewrite H. reflexivity.
Qed.
Lemma kept_1 : newest_kept 1 peer_a_bob (files_after demo) (without_file 1).
Proof. apply kept_b; [apply without_heads|vm_compute; reflexivity]. Qed.
(** A missing block file is not noticed: an entry that was recorded is not found any more, and
    no error is raised. *)
Theorem C77_loss_is_noticed_refuted : exists (E : Env) h n r i s' c e, store_laws /\ no_collision (files_after h) /\
  newest_kept i n (files_after h) s' /\ nth_error (log_files (files_after h) n) i = Some c /\ dget (f_blocks s') c = None /\
  snd (frun (read_first r n) (files_after h)) = Ok (Some e) /\ snd (frun (read_first r n) s') = Ok None.
Proof.
  exists E0, demo, peer_a_bob, (RMsgId (L "<1>")), 1%nat, (without_file 1).
  destruct (lost_file 1) as [c|] eqn:Ec; [|vm_compute in Ec; discriminate].
  destruct (found_in (files_after demo) (RMsgId (L "<1>"))) as [[e|]|] eqn:Ef; [|vm_compute in Ef; discriminate|vm_compute in Ef; discriminate].
  exists c, e. split; [apply toy_store_laws|]. split; [apply toy_no_collision|].
  split; [exact kept_1|].
  split; [exact Ec|]. split. { vm_compute in Ec. injection Ec as <-. vm_compute. reflexivity. }
  split. { unfold found_in in Ef. destruct (snd _) as [x|]; [injection Ef as ->; reflexivity|discriminate]. }
  vm_compute. reflexivity.
Qed.
Print Assumptions C77_loss_is_noticed_refuted.

(** bob's log has two blocks; without the older one the newer mail is still found *)
Example C77_example : store_laws /\ no_collision (files_after demo) /\
  length (log_files (files_after demo) peer_a_bob) = 2%nat /\
  is_some (lost_file 0) = true /\ is_some (lost_file 1) = true /\
  option_map is_some (found_in (files_after demo) (RMsgId (L "<1>"))) = Some true /\
  option_map is_some (found_in (without_file 1) (RMsgId (L "<1>"))) = Some false /\
  option_map is_some (found_in (without_file 1) (RMsgId (L "<2>"))) = Some true /\
  option_map is_some (found_in (without_file 0) (RMsgId (L "<2>"))) = Some false /\
  match lost_file 1 with
  | Some c => found_in (overwrite (files_after demo) c [7%N]) (RMsgId (L "<1>")) = None /\
              option_map is_some (found_in (overwrite (files_after demo) c [7%N]) RAc) = Some true
  | None => False
  end /\ @load E0 [7%N] = None.
Proof. split; [apply toy_store_laws|]. split; [apply toy_no_collision|]. vm_compute. repeat split; reflexivity. Qed.
(** the newest block replaced by one of another class, and by one without arguments *)
Definition replaced_by (tag : text) : fstate :=
  match log_files (files_after demo) peer_a_bob with
  | [c; p] => overwrite (files_after demo) c (@dumps E0 (PyList [SStr tag; SStr p; SFloat 7]))
  | _ => files_after demo
  end.
Definition found_by (s : fstate) (id : text) : result bool := match snd (frun (read_first (RMsgId id) peer_a_bob) s) with Ok x => Ok (is_some x) | Err e => Err e end.
Example C77_example_replaced :
  found_by (replaced_by (L "new")) (L "<1>") = Ok true /\ found_by (replaced_by (L "new")) (L "<2>") = Ok false /\
  found_by (replaced_by (L "msg")) (L "<1>") = Err TypeError /\
  match log_files (files_after demo) peer_a_bob with
  | [c; p] => f_heads (replaced_by (L "new")) = f_heads (files_after demo) /\
    match dget (f_blocks (replaced_by (L "new"))) c with Some b => @load E0 b = Some (PyList [SStr (L "new"); SStr p; SFloat 7]) | None => False end
  | _ => False
  end.
Proof. split; [vm_compute; reflexivity|]. split; [vm_compute; reflexivity|]. split; [vm_compute; reflexivity|]. vm_compute. split; reflexivity. Qed.
(** with the newest file lost, a new entry is all there is *)
Example C77_example_restart : match reads (fst (frun (append_entry peer_a_bob some_entry) (without_file 0))) peer_a_bob with
  | Ok l => length l = 1%nat | Err _ => False end /\
  match reads (fst (frun (append_entry peer_a_bob some_entry) (without_file 1))) peer_a_bob with
  | Ok l => length l = 2%nat | Err _ => False end.
Proof. vm_compute. split; reflexivity. Qed.
Example C77_example_shortrepr : shortrepr (L "abcdefghijklmnopqrstuvwxyzabcdefghijklmnopqrstuvwxyz") = L "abcdefghijklmnopqrstuvw...defghijklmnopqrstuvwxyz".
Proof. vm_compute. reflexivity. Qed.
