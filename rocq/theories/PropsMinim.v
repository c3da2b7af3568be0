(** C49: a key imported by hand is minimised.  Statements only; the proof is in MinimProofs.v. *)
From Verif Require Import Base PyStr Env Prog Chain Gpg Mime States Account Fs Api Spec OutSpec AcctSpec MinimSpec MinimProofs Obs Toy Demo PropsAcct.
#[local] Existing Instance E0.   (* for the example *)

Theorem C49_minimised : forall (E : Env) s n addr kd pref r, reachable s -> answer s (AImport n addr kd pref) = Ok (OImport r) ->
  minimised s (after s (AImport n addr kd pref)) kd (ir_kh r).
Proof. exact @c49_minimised. Qed.
Print Assumptions C49_minimised.

Example C49_minimised_example : let c := AImport (L "a") (Some (L "Dave <dave@d.org>")) keyC (L "mutual") in
  match answer state2 c with Ok (OImport r) => ir_kh r = skipn 3 keyC | _ => False end /\
  (length (a_trace (after state2 c)) - length (a_trace state2) = 7)%nat /\
  map (fun g => match gc_in g with Some k => k | None => last (gc_argv g) [] end) (firstn 7 (a_trace (after state2 c))) =
    [skipn 3 keyC; skipn 3 keyC; keyC; skipn 3 keyC; skipn 3 keyC; keyC; keyC].
Proof. cbv zeta. split; [vm_compute; reflexivity|]. split; vm_compute; reflexivity. Qed.
