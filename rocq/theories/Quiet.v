(** Programs that start gpg and read, but write nothing. *)
From Verif Require Import Base PyStr Base64 Env Prog Chain Gpg Mime States Recommendation Account Cmdline Bot Fs Api.

Definition quiet_op (X : Type) (o : cop X) : Prop :=
  match o with CAppend _ _ | CRemoveIf _ | CRmTree => False | _ => True end.
Notation quiet := (allowed quiet_op).

Create HintDb quiet.
Ltac quiet_step := match goal with
  | |- quiet (bind _ _) => apply allowed_bind; [|intros]
  | |- quiet (lift _) => apply allowed_lift
  | |- quiet (assert_ _) => apply allowed_assert
  | |- quiet (perform _) => apply allowed_perform; exact I
  | |- quiet (Ret _) => constructor
  | |- quiet (Raise _) => constructor
  | |- quiet (match ?x with _ => _ end) => destruct x
  | |- quiet (let (_, _) := ?x in _) => destruct x
  end.
Ltac quiets := repeat first [quiet_step | solve [auto with quiet]].

Section Quiet.
Context {E : Env}.

Lemma quiet_logs {A} (p : prog cop A) s : quiet p -> a_logs (fst (arun p s)) = a_logs s /\ exists l, a_trace (fst (arun p s)) = l ++ a_trace s.
Proof.
  intros Hp. unfold arun.
  refine (run_allowed_inv (@astep E) quiet_op (fun s' => a_logs s' = a_logs s /\ exists l, a_trace s' = l ++ a_trace s) p _ Hp s _).
  - intros X o s' Ho [H1 [l H2]]. destruct o; try destruct Ho; cbn [astep fst].
    1-4: split; [exact H1|exists l; exact H2].
    destruct (gpg _ _ _ _) as [r' res]. cbn [fst a_logs a_trace]. split; [exact H1|]. eexists (_ :: l). rewrite H2. reflexivity.
  - split; [reflexivity|]. exists []. reflexivity.
Qed.

Lemma quiet_own_config a : quiet (own_config a). Proof. unfold own_config. quiets. Qed.
Lemma quiet_own_keyhandle a : quiet (own_keyhandle a). Proof. unfold own_keyhandle. quiets. Qed.
Hint Resolve quiet_own_config quiet_own_keyhandle : quiet.
Lemma quiet_get_bingpg a : quiet (get_bingpg a). Proof. unfold get_bingpg. quiets. Qed.
Lemma quiet_gpg_outerr g argv i t st dec : quiet (gpg_outerr g argv i t st dec). Proof. unfold gpg_outerr. quiets. Qed.
Hint Resolve quiet_get_bingpg quiet_gpg_outerr : quiet.
Lemma quiet_list_public g kh : quiet (list_public_keyinfos g kh). Proof. unfold list_public_keyinfos, parse_list. quiets. Qed.
Lemma quiet_list_secret g kh : quiet (list_secret_keyinfos g kh). Proof. unfold list_secret_keyinfos, parse_list. quiets. Qed.
Hint Resolve quiet_list_public quiet_list_secret : quiet.
Lemma quiet_get_secret_keyhandle g kh : quiet (get_secret_keyhandle g kh). Proof. unfold get_secret_keyhandle. quiets. Qed.
Lemma quiet_find_keyhandle g e : quiet (find_keyhandle g e). Proof. unfold find_keyhandle. quiets. Qed.
Lemma quiet_get_public_keydata g kh b : quiet (get_public_keydata g kh b). Proof. unfold get_public_keydata. quiets. Qed.
Lemma quiet_get_secret_keydata g kh b : quiet (get_secret_keydata g kh b). Proof. unfold get_secret_keydata, version_known. quiets. Qed.
Hint Resolve quiet_get_secret_keyhandle quiet_find_keyhandle quiet_get_public_keydata quiet_get_secret_keydata : quiet.
Lemma quiet_gen_secret_key g e : quiet (gen_secret_key g e). Proof. unfold gen_secret_key, version_known. quiets. Qed.
Lemma quiet_gpg_encrypt g d r k : quiet (gpg_encrypt g d r k). Proof. unfold gpg_encrypt, version_known. quiets. Qed.
Lemma quiet_gpg_decrypt g d : quiet (gpg_decrypt g d). Proof. unfold gpg_decrypt, version_known. cbv zeta. quiets. Qed.
Lemma quiet_import_keydata g d b : quiet (import_keydata g d b). Proof. unfold import_keydata. quiets. Qed.
Hint Resolve quiet_gen_secret_key quiet_gpg_encrypt quiet_gpg_decrypt quiet_import_keydata : quiet.
Lemma quiet_import_key a p : quiet (import_key a p).
Proof.
  unfold import_key. apply allowed_bind; [auto with quiet|]. intros g. destruct (p_keydata p); [|constructor].
  apply allowed_catch; [quiets|]. intros e q. destruct e; try discriminate. intros [= <-]. constructor.
Qed.
Lemma quiet_decrypt_mime a m : quiet (decrypt_mime a m). Proof. unfold decrypt_mime. quiets. Qed.
Lemma quiet_make_ac_header a x : quiet (make_ac_header a x). Proof. unfold make_ac_header. quiets. Qed.
Lemma quiet_export_public_key a kh : quiet (export_public_key a kh). Proof. unfold export_public_key. quiets. Qed.
Lemma quiet_export_secret_key a : quiet (export_secret_key a). Proof. unfold export_secret_key. quiets. Qed.
Hint Resolve quiet_import_key quiet_decrypt_mime quiet_make_ac_header quiet_export_public_key quiet_export_secret_key : quiet.
Lemma quiet_encrypt_recipient a st x : quiet (encrypt_recipient a st x). Proof. unfold encrypt_recipient. cbv zeta. quiets. Qed.
Hint Resolve quiet_encrypt_recipient : quiet.
Lemma quiet_encrypt_mime a m to : quiet (encrypt_mime a m to).
Proof. unfold encrypt_mime. apply allowed_bind; [quiets|intros _]. apply allowed_bind; [apply allowed_foldM; auto with quiet|]. intros [khs cl]. quiets. Qed.
Lemma quiet_recommend a l b f : quiet (recommend a l b f).
Proof.
  unfold recommend, ui_recommendation. apply allowed_bind; [auto with quiet|]. intros c. apply allowed_bind; [|intros; quiets].
  apply allowed_mapM. intros. quiets.
Qed.
Hint Resolve quiet_encrypt_mime quiet_recommend : quiet.
Lemma quiet_process_outgoing a m : quiet (process_outgoing a m).
Proof. unfold process_outgoing. cbv zeta. quiets. Qed.
Lemma quiet_status_account a v : quiet (cli_status_account a v).
Proof.
  unfold cli_status_account, get_peername_list. quiets. apply allowed_mapM. intros n _. unfold status_peer_line. cbv zeta. quiets.
Qed.
End Quiet.
#[export] Hint Resolve quiet_own_config quiet_own_keyhandle quiet_get_bingpg quiet_gpg_outerr quiet_list_public quiet_list_secret
  quiet_get_secret_keyhandle quiet_find_keyhandle quiet_get_public_keydata quiet_get_secret_keydata quiet_gen_secret_key
  quiet_gpg_encrypt quiet_gpg_decrypt quiet_import_keydata quiet_import_key quiet_decrypt_mime quiet_make_ac_header
  quiet_export_public_key quiet_export_secret_key quiet_encrypt_recipient quiet_encrypt_mime quiet_recommend
  quiet_process_outgoing quiet_status_account : quiet.
