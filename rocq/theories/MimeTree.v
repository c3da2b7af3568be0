(** /repo/muacrypt/mime.py:297-352 make_displayable and render_mime_structure. *)
From Verif Require Import Base PyStr Env.

(** What the email library says about a part besides its headers: str(msg.get_charset()),
    msg.get_filename(), msg.get_params(None, header="Content-Disposition") and
    len(msg.as_string()), which may raise.  A bytes file name (Python 2) is not modelled. *)
Record display := Display {
  d_charset : msg -> option text;
  d_filename : msg -> option text;
  d_params : msg -> option (list (text * text));
  d_length : msg -> result nat }.

(** the characters used for drawing *)
Definition c_last : N := 9492.   (* └ *)
Definition c_more : N := 9500.   (* ├ *)
Definition c_bar : N := 9474.    (* │ *)
Definition c_node : N := 9516.   (* ┬ *)
Definition c_leaf : N := 9472.   (* ─ *)
Definition c_arm : N := 9588.    (* ╴ *)

Section MimeTree.
Context {E : Env} (D : display).

(** lines 319-325: the last one wins *)
Definition disposition (m : msg) : text :=
  match d_params D m with
  | None => []
  | Some l => fold_left (fun acc d => if mem_text (fst d) [L "attachment"; L "inline"] then L " " ++ fst d else acc) l []
  end.
(** get_content_type() + cset + disposition + fname, lines 316-325 *)
Definition part_label (m : msg) : text :=
  get_content_type m
  ++ match d_charset D m with None => [] | Some c => L " (" ++ c ++ L ")" end
  ++ disposition m
  ++ L " [" ++ match d_filename D m with Some f => f | None => [] end ++ L "]".
(** lines 327-330 *)
Definition part_subject (m : msg) : text :=
  match hget m (L "subject") with Some v => L " (Subject: " ++ v ++ L ")" | None => [] end.
(** one line, without its end: print(a, b) puts a space between *)
Definition part_line (prefix : text) (kind : N) (m : msg) (n : nat) : text :=
  prefix ++ [kind; c_arm] ++ part_label m ++ L " " ++ dec_N (N.of_nat n) ++ L " bytes" ++ part_subject m.

(** lines 335-338: the prefix below a node *)
Definition ends_with (c : N) (p : text) : bool := match rev p with x :: _ => N.eqb x c | [] => false end.
Definition prefix_below (p : text) : text :=
  let p := if ends_with c_last p then removelast p ++ L " " else p in
  if ends_with c_more p then removelast p ++ [c_bar] else p.

(** parts[i] of an empty list is an IndexError, len() of a missing payload an AttributeError *)
Fixpoint render (m : msg) (prefix : text) {struct m} : result text :=
  match m with
  | Msg h b =>
    match b with
    | PParts l =>
      rbind (d_length D (Msg h (PParts l))) (fun n =>
      let below := prefix_below prefix in
      rbind ((fix children (l : list msg) : result text :=
                match l with
                | [] => Err IndexError
                | x :: l' =>
                  match l' with
                  | [] => rbind (render x (below ++ [c_last])) (fun t => Ok (t ++ [10%N]))
                  | _ => rbind (render x (below ++ [c_more])) (fun t =>
                         rbind (children l') (fun r => Ok (t ++ [10%N] ++ r)))
                  end
                end) l) (fun r =>
      Ok (rstrip (part_line prefix c_node (Msg h (PParts l)) n ++ [10%N] ++ r))))
    | PNone => Err AttributeError
    | PStr t => Ok (rstrip (part_line prefix c_leaf (Msg h b) (length t) ++ [10%N]))
    | PBytes t => Ok (rstrip (part_line prefix c_leaf (Msg h b) (length t) ++ [10%N]))
    end
  end.

(** with the default prefix *)
Definition render_mime_structure (m : msg) : result text := render m [c_last].
End MimeTree.
