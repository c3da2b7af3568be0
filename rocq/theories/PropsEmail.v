(** C94: the text of an encrypted mail arrives as it was written.  Statements only; proofs are in
    EmailProofs.v and EmailUse.v, the vocabulary is in EmailSpec.v. *)
From Verif Require Import Base PyStr Base64 Env Prog Chain Gpg Mime States Account Fs Api Spec Obs PeerSpec OutSpec OutProofs2 EmailText EmailSpec EmailProofs EmailUse Toy Demo PropsOut.

(** Python's email package writes a mail before gpg encrypts it and reads it after gpg has
    decrypted it.  For ordinary mails reading is the inverse of writing. *)
Theorem C94_read_back : forall (E : Env) (EL : EmailLib) m, ordinary true m ->
  exists data, mail_bytes m = Ok data /\ mail_read data = m.
Proof. exact @ordinary_bytes. Qed.
Print Assumptions C94_read_back.

(** The full statement: as [C94_arrives_partial], for all mails, without [ordinary]. *)
Theorem C94_arrives_partial : forall (E : Env) (EL : EmailLib) s a m to em khs, python_mail -> reachable s ->
  answer s (AEncrypt a m to) = Ok (OEncrypted em khs) ->
  ordinary true (Msg (inner_headers m) (m_body m)) -> Forall writable_peer to ->
  forall s2 b dm infos, reachable s2 -> answer s2 (ADecrypt b em) = Ok (ODecrypted dm infos) ->
  (forall khs own data enc, gpg_encrypted s (after s (AEncrypt a m to)) khs own data enc -> forall home argv r,
     ran s2 (after s2 (ADecrypt b em)) (GCall home argv (Some enc) None) -> g_out (snd (gpg r argv (Some enc) None)) = data) ->
  exists gs, Forall2 (fun x => gossip_about s a (norm x)) to gs /\ m_body dm = m_body m /\
    m_headers dm = inner_headers m ++ map (fun v => (L "Autocrypt-Gossip", v)) (concat gs) ++ outer_headers m.
Proof. exact @c94_arrives. Qed.
Print Assumptions C94_arrives_partial.

(** For a mail that is a text it is known exactly when: no line begins with "From " and lines
    end in LF alone. *)
Theorem C94_text_exactly : forall (E : Env) (EL : EmailLib) s a m to em khs t, python_mail -> reachable s ->
  answer s (AEncrypt a m to) = Ok (OEncrypted em khs) ->
  m_body m = PStr t -> Forall (plain_field true) (inner_headers m) -> text_type (inner_headers m) -> Forall writable_peer to ->
  forall s2 b dm infos, reachable s2 -> answer s2 (ADecrypt b em) = Ok (ODecrypted dm infos) ->
  (forall khs own data enc, gpg_encrypted s (after s (AEncrypt a m to)) khs own data enc -> forall home argv r,
     ran s2 (after s2 (ADecrypt b em)) (GCall home argv (Some enc) None) -> g_out (snd (gpg r argv (Some enc) None)) = data) ->
  m_body dm = PStr t <-> ~ In 13%N t /\ (forall l, line_in t l -> ~ from_line l).
Proof. exact @c94_text. Qed.
Print Assumptions C94_text_exactly.

(** and a text with other characters than ASCII and escaped bytes is never encrypted at all *)
Theorem C94_only_ascii : forall (E : Env) (EL : EmailLib) s a m to t em khs, python_mail -> reachable s ->
  m_body m = PStr t -> text_type (inner_headers m) -> answer s (AEncrypt a m to) = Ok (OEncrypted em khs) -> Forall sendable t.
Proof. exact @c94_not_ascii. Qed.
Print Assumptions C94_only_ascii.

(** ** Examples: the toy environment with Python's mails *)
Definition after_word (w t : text) : option text :=
  (fix go (t : text) := match without_prefix w t with Some r => Some r | None => match t with [] => None | _ :: t' => go t' end end) t.
Definition unquoted (t : text) : text := filter (fun c => negb (N.eqb c 34)) t.
Definition quoted_boundary (t : text) : option text := match after_word (L "boundary=") t with Some b => Some (unquoted b) | None => None end.
Definition EL1 : EmailLib := {|
  boundary_of := quoted_boundary; new_boundary := fun _ => L "===============12=="; with_boundary := fun v b => v ++ L "; boundary=""" ++ b ++ L """";
  fold_field := fun _ n v => n ++ L ": " ++ v ++ [10%N];
  other_text := fun _ => Err TypeError; other_msg := fun t => Msg [] (PStr t) |}.
Definition E1 : Env := {|
  sha256 := @sha256 E0; dumps := @dumps E0; load := @load E0; uni_lower := @uni_lower E0; uni_alnum := @uni_alnum E0;
  parseaddr := @parseaddr E0; getaddresses := @getaddresses E0; formataddr := @formataddr E0; parsedate_tz := @parsedate_tz E0;
  mktime := @mktime E0; re_match := @re_match E0; ring := @ring E0; ring0 := @ring0 E0; gpg := @gpg E0;
  flatten := @mail_bytes E0 EL1; parse_bytes := @mail_read E0 EL1; env_path := @env_path E0; is_file := @is_file E0;
  version_run := @version_run E0; uuid_hex := @uuid_hex E0; clock := @clock E0; basedir := @basedir E0; set_order := @set_order E0;
  mimetext := @mimetext E0; formatdate := @formatdate E0
|}.
#[local] Existing Instance E1.
#[local] Existing Instance EL1.
Lemma E1_python : python_mail. Proof. split; intros x; reflexivity. Qed.
Definition here : ast := after_all ast0 known.
Lemma here_reached : reached here. Proof. exists known. reflexivity. Qed.
Lemma here_reachable : reachable here. Proof. exact (reached_reachable _ here_reached). Qed.
Definition with_text (t : text) : msg := Msg ([(L "From", alice); (L "To", L "bob@b.org, carol@c.org"); (L "Content-Type", L "text/plain; charset=utf-8")]) (PStr t).
Definition hello : msg := Msg [(L "Content-Type", L "text/plain")] (PStr (L "Hello," ++ [10%N] ++ L ">From here" ++ [10%N])).
Definition two_parts : msg := Msg [(L "From", alice); (L "Content-Type", L "multipart/mixed; boundary=xyz"); (L "Subject", L "s")]
  (PParts [hello; Msg [(L "Content-Type", L "multipart/mixed; boundary=inner")] (PParts [hello]); Msg [(L "X-Other", L "1")] (PStr [])]).
Definition sealed (m : msg) : msg := match answer here (AEncrypt (L "a") m [bob; carol]) with Ok (OEncrypted em _) => em | _ => m end.
Definition opened (m : msg) : msg := match answer here (ADecrypt (L "a") (sealed m)) with Ok (ODecrypted dm _) => dm | _ => m end.
Definition both_ways (m : msg) : Prop :=
  (exists khs, answer here (AEncrypt (L "a") m [bob; carol]) = Ok (OEncrypted (sealed m) khs)) /\
  (exists infos, answer here (ADecrypt (L "a") (sealed m)) = Ok (ODecrypted (opened m) infos)) /\
  (forall khs own data enc, gpg_encrypted here (after here (AEncrypt (L "a") m [bob; carol])) khs own data enc -> forall home argv r,
     ran here (after here (ADecrypt (L "a") (sealed m))) (GCall home argv (Some enc) None) -> g_out (snd (gpg r argv (Some enc) None)) = data).
Ltac both_ways := split; [eexists; vm_compute; reflexivity|]; split; [eexists; vm_compute; reflexivity|];
  intros khs own data enc [home0 [argv0 [r0 [H1 [_ H3]]]]] home argv r H4;
  apply ran_new in H1, H4; vm_compute in H1, H4; destruct H1 as [H1|[]]; injection H1 as <- <- <-;
  destruct H4 as [H4|[]]; injection H4 as <- <- _; rewrite <- H3; vm_compute; reflexivity.
Ltac chars := repeat constructor; vm_compute; try discriminate.
Ltac one_line := split; [discriminate|]; split; [chars|]; eexists; exists []; split; [reflexivity|]; split;
  [split; [chars|intros l' He; apply (f_equal (@rev N)) in He; rewrite rev_app_distr in He; discriminate]|]; split;
  [intros l' He; discriminate|]; split; [intros _; vm_compute; lia|constructor].
Lemma peers_writable : Forall writable_peer [bob; carol].
Proof. repeat constructor; try (vm_compute; discriminate); vm_compute; lia. Qed.
Lemma hello_ordinary : ordinary true hello.
Proof.
  cbn [ordinary hello]. split; [constructor; [one_line|constructor]|]. split; [intros r; split; vm_compute; discriminate|].
  split; [apply Forall_forall; intros c Hc; left; revert Hc; vm_compute; intuition (subst; reflexivity)|]. split; [vm_compute; intuition discriminate|].
  intros _ l Hl [r Hr]. vm_compute in Hl. destruct Hl as [<-|[<-|[<-|[]]]]; discriminate.
Qed.
Ltac apart := intros t l Ht Hl [w [[Hw|Hw] _]]; vm_compute in Ht; injection Ht as <-; vm_compute in Hl;
  repeat (destruct Hl as [<-|Hl]; [discriminate|]); destruct Hl.
Lemma parts_ordinary : ordinary true (Msg (inner_headers two_parts) (m_body two_parts)).
Proof.
  change (ordinary true (Msg [(L "Content-Type", L "multipart/mixed; boundary=xyz")] (m_body two_parts))). cbn [ordinary two_parts m_body].
  split; [constructor; [one_line|constructor]|]. split; [discriminate|]. exists (L "xyz"). split.
  - split; [exists (L "mixed"); split; [vm_compute; reflexivity|discriminate]|]. split; [eexists; split; vm_compute; reflexivity|].
    split; [discriminate|]. repeat constructor; vm_compute; try discriminate. 
  - split; [split; [exact hello_ordinary|apart]|]. split; [split; [|apart]|split; [split; [|apart]|exact I]].
    + split; [constructor; [one_line|constructor]|]. split; [discriminate|]. exists (L "inner"). split; [|split; [split; [exact hello_ordinary|apart]|exact I]].
      split; [exists (L "mixed"); split; [vm_compute; reflexivity|discriminate]|]. split; [eexists; split; vm_compute; reflexivity|].
      split; [discriminate|]. repeat constructor; vm_compute; try discriminate.
    + split; [constructor; [one_line|constructor]|]. split; [intros r; split; vm_compute; discriminate|]. split; [constructor|]. split; [exact (fun F => F)|].
      intros _ l Hl [r Hr]. vm_compute in Hl. destruct Hl as [<-|[]]. discriminate.
Qed.
Example C94_example : python_mail /\ reachable here /\ Forall writable_peer [bob; carol] /\
  ordinary true (Msg (inner_headers two_parts) (m_body two_parts)) /\ both_ways two_parts /\ m_body (opened two_parts) = m_body two_parts.
Proof.
  split; [exact E1_python|]. split; [exact here_reachable|]. split; [exact peers_writable|]. split; [exact parts_ordinary|]. split; [both_ways|vm_compute; reflexivity].
Qed.
Definition tea : msg := with_text (L "Tea from here," ++ [9%N] ++ L "1 cup" ++ [10%N; 10%N] ++ L " From").
Example C94_example_text : both_ways tea /\ Forall (plain_field true) (inner_headers tea) /\ text_type (inner_headers tea) /\ m_body (opened tea) = m_body tea.
Proof.
  split; [both_ways|]. split; [constructor; [one_line|constructor]|]. split; [intros r; split; vm_compute; discriminate|]. vm_compute. reflexivity.
Qed.
(** bytes that are not ASCII, read as such from a binary file *)
Definition latin : msg := Msg [(L "Content-Type", L "text/plain; charset=latin1")] (PStr [56548%N; 10%N]).
Example C94_example_bytes : ordinary true latin /\ mail_bytes latin = Ok (L "Content-Type: text/plain; charset=latin1" ++ [10; 10; 228; 10]%N).
Proof.
  split; [|vm_compute; reflexivity]. cbn [ordinary latin]. split; [constructor; [one_line|constructor]|]. split; [intros r; split; vm_compute; discriminate|].
  split; [constructor; [right; vm_compute; split; discriminate|constructor; [left; reflexivity|constructor]]|]. split; [vm_compute; intuition discriminate|].
  intros _ l Hl [r Hr]. vm_compute in Hl. destruct Hl as [<-|[<-|[]]]; discriminate.
Qed.

(** delimiters that follow each other directly have no part between them; there is none after the last one *)
Definition delimited (between : text) : text :=
  L "Content-Type: multipart/mixed; boundary=xyz" ++ [10; 10]%N ++ L "before" ++ [10%N] ++ L "--xyz" ++ [10%N] ++ between ++
  L "Content-Type: text/plain" ++ [10; 10]%N ++ L "one" ++ [10; 10]%N ++ L "--xyz " ++ [10%N] ++ between ++
  L "Content-Type: text/plain" ++ [10; 10]%N ++ L "two" ++ [10%N] ++ L "--xyz--" ++ [10%N] ++ L "after" ++ [10%N].
Example C94_example_delimiters : forall d, In d [[]; L "--xyz" ++ [10%N]; L "--xyz" ++ [10%N] ++ L "--xyz" ++ [9; 10]%N; L "--xyz--" ++ [10%N]] ->
  string_read (delimited d) = Msg [(L "Content-Type", L "multipart/mixed; boundary=xyz")]
    (PParts [Msg [(L "Content-Type", L "text/plain")] (PStr (L "one" ++ [10%N])); Msg [(L "Content-Type", L "text/plain")] (PStr (L "two"))]).
Proof. intros d [<-|[<-|[<-|[<-|[]]]]]; vm_compute; reflexivity. Qed.

(** ** False in general: "From " at the beginning of a line gets a ">".
    A line end CR LF becomes LF. *)
Definition from_here : msg := with_text (L "Hello," ++ [10%N] ++ L "From here on").
Theorem C94_from_line_refuted : exists (E : Env) (EL : EmailLib) s a m to em khs dm infos, python_mail /\ reached s /\
  answer s (AEncrypt a m to) = Ok (OEncrypted em khs) /\ answer s (ADecrypt a em) = Ok (ODecrypted dm infos) /\
  Forall (plain_field true) (inner_headers m) /\ text_type (inner_headers m) /\ Forall writable_peer to /\
  (forall khs own data enc, gpg_encrypted s (after s (AEncrypt a m to)) khs own data enc -> forall home argv r,
     ran s (after s (ADecrypt a em)) (GCall home argv (Some enc) None) -> g_out (snd (gpg r argv (Some enc) None)) = data) /\
  m_body m = PStr (L "Hello," ++ [10%N] ++ L "From here on") /\ m_body dm = PStr (L "Hello," ++ [10%N] ++ L ">From here on").
Proof.
  assert (H : both_ways from_here) by both_ways. destruct H as [[khs H1] [[infos H2] H3]].
  exists E1, EL1, here, (L "a"), from_here, [bob; carol], (sealed from_here), khs, (opened from_here), infos.
  split; [exact E1_python|]. split; [exact here_reached|]. split; [exact H1|]. split; [exact H2|]. split; [constructor; [one_line|constructor]|].
  split; [intros r; split; vm_compute; discriminate|]. split; [exact peers_writable|]. split; [exact H3|]. split; vm_compute; reflexivity.
Qed.
Print Assumptions C94_from_line_refuted.
(** A text with an a with diaeresis, in a mail that was parsed from a str (mime.py:94-103), cannot
    be encrypted. *)
Theorem C94_umlaut_refuted : exists (E : Env) (EL : EmailLib) s a m to, python_mail /\ reached s /\ m_body m = PStr [228%N] /\
  (forall x, In x to -> exists v, peer_of s a x = Some v /\ pv_keyhandle v <> []) /\
  answer s (AEncrypt a m to) = Err UnicodeError.
Proof.
  exists E1, EL1, here, (L "a"), (with_text [228%N]), [bob; carol]. split; [exact E1_python|]. split; [exact here_reached|]. split; [reflexivity|]. split; [|vm_compute; reflexivity].
  intros x [<-|[<-|[]]]; eexists; (split; [vm_compute; reflexivity|vm_compute; discriminate]).
Qed.
Print Assumptions C94_umlaut_refuted.
