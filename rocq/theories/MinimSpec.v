(** Vocabulary for C49: a key imported by hand is reduced to what is needed. *)
From Verif Require Import Base PyStr Env Prog Chain Gpg Mime States Account Fs Api Spec OutSpec.

Section MinimSpec.
Context {E : Env}.

(** Between [s] and [s'] gpg was called, with one key ring, to import [kd], to export the key
    [kh] in minimal form, to delete it, and to import what it had exported; after this nothing
    was given to it.  (The trace has the newest call first.) *)
Definition minimised (s s' : ast) (kd : bytes) (kh : text) : Prop :=
  exists home pre small r l1 l2 l3,
    let call rest inp := GCall home (pre ++ rest) inp None in
    let export := [L "--export-options=export-minimal"; L "--export"; kh] in
    a_trace s' = l3 ++ call [L "--skip-verify"; L "--import"] (Some small)
                    :: call [L "--yes"; L "--delete-key"; kh] None
                    :: call export None
                 :: l2 ++ call [L "--skip-verify"; L "--import"] (Some kd) :: l1 ++ a_trace s /\
    small = g_out (snd (gpg r (pre ++ export) None None)) /\
    Forall (fun g => gc_in g = None) l3 /\ Forall (fun g => gc_in g = None) l2.
End MinimSpec.
