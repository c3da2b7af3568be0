(** The bot's report and the delivery of its reply: C82. *)
From Verif Require Import Base PyStr Base64 Env Prog Chain Gpg Mime States Recommendation Account Cmdline Bot Fs Api Steps StepFacts Exec ApiScope
  Spec Obs PeerSpec RecSpec OutSpec MimeTree Commands BotCommand CliSpec BotSpec Incoming RecProofs OutProofs CliProofs CliProofs2 CliProofs3.
From Verif Require GpgMoreSpec GpgMoreProofs.

(** ** The log *)
Definition blk (n : nat) (t : text) : list text := map (fun l => indent_text n ++ l) (match splitlines t with [] => [[]] | l => l end).
Lemma indent_blanks n : indent_text n = repeat 32%N (2 * n).
Proof.
  unfold indent_text. induction n as [|n IH]; [reflexivity|]. cbn [repeat concat]. rewrite IH.
  replace (2 * S n)%nat with (S (S (2 * n))) by lia. reflexivity.
Qed.
Lemma para_blk n t : paragraph n t (blk n t).
Proof.
  exists (splitlines t). split; [apply GpgMoreProofs.c78_lines; reflexivity|]. unfold blk. rewrite indent_blanks. destruct (splitlines t); reflexivity.
Qed.
Lemma call_lines l n t : log_call (SLog l n) t = SLog (l ++ blk n t) n.
Proof. reflexivity. Qed.
Lemma blk_empty : blk 0 [] = [[]]. Proof. reflexivity. Qed.
Lemma blk_newline : blk 0 [10%N] = [[]]. Proof. reflexivity. Qed.
Lemma section_ok l title r tb body new : l <> [] ->
  (forall l', body (SLog l' 1) = (SLog (l' ++ new) 1, Ok tt)) ->
  fst (log_section title r tb body (SLog l 0)) = SLog (l ++ [] :: blk 0 title ++ [[]] ++ new ++ [[]]) 0.
Proof.
  intros Hl Hb. unfold log_section. cbn [sl_lines]. destruct l as [|x l]; [contradiction|].
  rewrite !call_lines. cbn [sl_lines sl_indent]. rewrite Hb. cbn [fst sl_lines sl_indent pred]. rewrite call_lines, blk_empty.
  rewrite <- !app_assoc. reflexivity.
Qed.
Lemma section_err l title tb body e : l <> [] ->
  (forall l', body (SLog l' 1) = (SLog l' 1, Err e)) ->
  fst (log_section title false tb body (SLog l 0)) = SLog (l ++ [] :: blk 0 title ++ [[]] ++ blk 0 (tb e) ++ [[]]) 0.
Proof.
  intros Hl Hb. unfold log_section. cbn [sl_lines]. destruct l as [|x l]; [contradiction|].
  rewrite !call_lines. cbn [sl_lines sl_indent]. rewrite Hb. cbn [fst sl_lines sl_indent pred]. rewrite !call_lines, blk_empty.
  rewrite <- !app_assoc. reflexivity.
Qed.

Section BotProofs.
Context {E : Env} {Sh : Shell} {Po : Post}.

Lemma fold_calls m names l n : fold_left (fun s hn => log_call s (header_text m hn)) names (SLog l n)
  = SLog (l ++ concat (map (fun hn => blk n (header_text m hn)) names)) n.
Proof.
  revert l. induction names as [|h names IH]; intros l; cbn [fold_left map concat]; [rewrite app_nil_r; reflexivity|].
  rewrite call_lines, IH, <- app_assoc. reflexivity.
Qed.

Lemma escaped_map v : escaped v (flat_map (fun c => if N.eqb c 10 then L "\n" else [c]) v).
Proof.
  induction v as [|c v IH]; [constructor|]. cbn [flat_map]. destruct (N.eqb_spec c 10) as [->|Hc].
  - cbn [app]. constructor. exact IH.
  - cbn [app]. constructor; auto.
Qed.
Lemma column_pad t : column t (pad 15 t).
Proof.
  exists (repeat 32%N (15 - length t)). unfold pad. split; [reflexivity|]. split; [apply Forall_forall; intros x Hx; apply repeat_spec in Hx; auto|].
  rewrite app_length, repeat_length. split; [lia|]. intros H. replace (15 - length t)%nat with 0%nat by lia. apply app_nil_r.
Qed.
Lemma header_ok m hn : header_shown m hn (header_text m hn).
Proof.
  unfold header_shown, header_text. destruct (hget m hn) as [v|].
  - do 3 eexists. split; [apply column_pad|]. split; [apply escaped_map|]. split; [|reflexivity].
    set (e := flat_map _ v). destruct (trunc_spec e 60) as [T1 T2]; [lia|]. split; [exact T1|]. intros H.
    destruct (T2 H) as [kept [dropped [n [H1 [H2 [H3 [H4 _]]]]]]]. exists kept, dropped, n. auto.
  - eexists. split; [apply column_pad|reflexivity].
Qed.

(** the report up to the structure of the mail *)
Definition structure_lines (m : msg) : list text :=
  [] :: blk 0 (L "And this is the mime structure i saw:") ++ [[]]
    ++ match render_mime_structure parts_shown m with Ok t => blk 1 t | Err e => blk 0 (traceback e) end ++ [[]].
Definition head_lines (m : msg) : list text :=
  [] :: blk 0 (L "Got your mail, here is what i found in headers:") ++ [[]]
    ++ concat (map (fun hn => blk 1 (header_text m hn)) shown_headers) ++ [[]].
Lemma found_lines m me : log_found m me =
  SLog ([L "reading headers"; []] ++ blk 1 (L "determined Delivered-To: " ++ me) ++ [[]] ++ head_lines m ++ structure_lines m) 0.
Proof.
  unfold log_found. cbv zeta.
  assert (H1 : fst (log_section (L "reading headers") true traceback (fun s => (log_call s (L "determined Delivered-To: " ++ me), Ok tt)) (SLog [] 0))
    = SLog ([L "reading headers"; []] ++ blk 1 (L "determined Delivered-To: " ++ me) ++ [[]]) 0).
  { unfold log_section. cbv zeta. rewrite !call_lines. cbn [fst snd sl_lines sl_indent pred]. rewrite ?call_lines. reflexivity. }
  rewrite H1. erewrite section_ok; [|discriminate|intros l'; rewrite fold_calls; reflexivity].
  change (shown_headers) with shown_headers.
  assert (H2 : forall l, l <> [] -> fst (log_section (L "And this is the mime structure i saw:") false traceback
     (fun s => match render_mime_structure parts_shown m with Ok t => (log_call s t, Ok tt) | Err e => (s, Err e) end) (SLog l 0))
     = SLog (l ++ structure_lines m) 0).
  { intros l Hl. unfold structure_lines. destruct (render_mime_structure parts_shown m) as [t|e].
    - apply section_ok; [exact Hl|]. reflexivity.
    - apply section_err; [exact Hl|]. reflexivity. }
  rewrite H2 by discriminate. f_equal. unfold head_lines. rewrite <- !app_assoc. reflexivity.
Qed.

Definition found_text (i : incoming) (l : list block) : text :=
  match p_error (in_pah i) with
  | Some (c :: e) => c :: e
  | _ => L "found peeraddr=" ++ peer_addr (in_chain i) ++ L " keyhandle=" ++ public_keyhandle l ++ L " prefer_encrypt=" ++ peer_prefer_encrypt l
  end.
Lemma processed_lines i l ls : ls <> [] -> log_processed i l (SLog ls 0) =
  SLog (ls ++ ([] :: blk 0 (L "processed incoming mail for account " ++ in_acct i ++ L ":") ++ [[]] ++ blk 1 (found_text i l) ++ [[]]) ++ [[]]) 0.
Proof.
  intros Hl. unfold log_processed. rewrite section_ok with (new := blk 1 (found_text i l)); [|exact Hl|].
  - rewrite call_lines, blk_newline. generalize (blk 0 (L "processed incoming mail for account " ++ in_acct i ++ L ":")), (blk 1 (found_text i l)).
    intros b1 b2. cbn [app]. rewrite <- app_assoc. cbn [app]. rewrite <- !app_assoc. reflexivity.
  - intros l'. unfold found_text. destruct (p_error (in_pah i)) as [[|c e]|]; cbn [nonempty]; rewrite call_lines; reflexivity.
Qed.

(** ** Delivery *)
Lemma deliver_ok smtp rep me o : hget_all rep (L "From") = [me] -> (deliver smtp rep = Ok o <-> delivery smtp rep me o).
Proof.
  intros Hf. assert (Hg : hget rep (L "From") = Some me) by (rewrite hget_hd, Hf; reflexivity).
  unfold deliver, delivery. change (get_target_emailadr rep) with (map snd (addressed rep)).
  destruct (as_string rep) as [t|e] eqn:Et.
  2:{ split; [|intros [t [H _]]; discriminate].
      destruct smtp as [[|c x]|]; try discriminate. destruct (split_on 44 (c :: x)) as [|h [|p [|? ?]]]; try discriminate.
      destruct (int_of p); discriminate. }
  cbn [rbind]. destruct smtp as [[|c x]|].
  - split.
    + intros [= <-]. exists t. auto.
    + intros [t' [[= <-] [[_ ->]|[x [h [p [n [H1 [H2 _]]]]]]]]]; [reflexivity|]. injection H1 as <-. destruct h; discriminate.
  - split.
    + destruct (split_on 44 (c :: x)) as [|h [|p [|? ?]]] eqn:Es; try discriminate.
      destruct (int_of p) as [n|] eqn:En; [|discriminate]. cbn [rbind]. rewrite Hg.
      destruct (smtp_send h n me _ t) as [[]|] eqn:Eg; [|discriminate]. cbn [rbind]. intros [= <-].
      exists t. split; [reflexivity|]. right. apply GpgMoreProofs.cut_into_split in Es as [_ [Ej Ef]]. inversion Ef as [|? ? F1 F2]; subst. inversion F2; subst.
      exists (c :: x), h, p, n. do 6 (split; [first [reflexivity|assumption|symmetry; exact Ej]|]). reflexivity.
    + intros [t' [[= <-] [[[H|H] _]|[x' [h [p [n [H1 [H2 [H3 [H4 [H5 [H6 ->]]]]]]]]]]]]]; try discriminate. injection H1 as <-.
      assert (Es : split_on 44 (c :: x) = [h; p]).
      { apply GpgMoreProofs.cut_into_split. split; [discriminate|]. split; [symmetry; exact H2|]. repeat constructor; assumption. }
      rewrite Es, H5. cbn [rbind]. rewrite Hg, H6. reflexivity.
  - split.
    + intros [= <-]. exists t. auto.
    + intros [t' [[= <-] [[_ ->]|[x [h [p [n [H1 _]]]]]]]]; [reflexivity|discriminate].
Qed.

(** ** The command is the reply with the report as its text *)
Definition final_lines (m : msg) (me : text) (i : incoming) (l : list block) (infos : option (list (text * text))) (kh : text) (q : option text) : list text :=
  ([L "reading headers"; []] ++ blk 1 (L "determined Delivered-To: " ++ me) ++ [[]] ++ head_lines m ++ structure_lines m)
  ++ ([] :: blk 0 (L "processed incoming mail for account " ++ in_acct i ++ L ":") ++ [[]] ++ blk 1 (found_text i l) ++ [[]]) ++ [[]]
  ++ match infos with
     | Some x => L "Your message was encrypted." :: blk 0 (L "It was encrypted to the following keys:" ++ infos_text x)
     | None => []
     end
  ++ blk 0 (L "have a nice day, " ++ me) ++ [[]]
  ++ blk 0 (L "P.S.: my current key " ++ kh ++ L " is in the Autocrypt header of this reply.")
  ++ blk 0 (L "P.P.S.: For this reply the encryption recommendation is " ++ match q with Some q => q | None => L "None" end).

Lemma read_run {A} n (f : list block -> prog cop A) s : arun (l <- perform (CRead n) ;; f l) s = arun (f (alog s n)) s.
Proof. reflexivity. Qed.
Lemma drawn_run {A} (f : text -> Z -> prog cop A) s :
  arun (id <- perform CUuid ;; now <- perform CTime ;; f id now) s = arun (f (uuid_hex (a_uuid s)) (clock (a_tick s))) (drawn s).
Proof. reflexivity. Qed.

Definition tail_reply (me a : text) (m : msg) (q : option text) (body : text) : prog cop (option msg) :=
  match hget m (L "To") with
  | None => Raise TypeError
  | Some to =>
    if negb (contains me to) then Ret None
    else
      cc <- lift (format_others me (set_order (get_target_fulladr m))) ;;
      ac <- make_ac_header a me ;;
      match hget m (L "From") with
      | None => Raise TypeError
      | Some from =>
        id <- perform CUuid ;;
        now <- perform CTime ;;
        let reply := gen_reply me from cc id
                       (L "Re: " ++ match hget m (L "Subject") with Some s => s | None => [] end)
                       (formatdate now)
                       (match hget m (L "Message-ID") with Some i => i | None => [] end) ac body in
        if otext_eqb q (Some (L "encrypt")) then
          '(em, _) <- encrypt_mime a reply (from :: cc) ;;
          b <- lift (is_encrypted em) ;;
          assert_ b ;;;
          Ret (Some em)
        else Ret (Some reply)
      end
  end.
Definition tail_command (smtp : option text) (me a : text) (m : msg) (q : option text) (body : text) : prog cop posted :=
  match hget m (L "To") with
  | None => Raise TypeError
  | Some to =>
    if negb (contains me to) then Ret (Posted [] None)
    else
      cc <- lift (format_others me (set_order (get_target_fulladr m))) ;;
      ac <- make_ac_header a me ;;
      match hget m (L "From") with
      | None => Raise TypeError
      | Some from =>
        id <- perform CUuid ;;
        now <- perform CTime ;;
        let reply := gen_reply me from cc id
                       (L "Re: " ++ match hget m (L "Subject") with Some s => s | None => [] end)
                       (formatdate now)
                       (match hget m (L "Message-ID") with Some i => i | None => [] end) ac body in
        reply <- (if otext_eqb q (Some (L "encrypt")) then
                    '(em, _) <- encrypt_mime a reply (from :: cc) ;;
                    b <- lift (is_encrypted em) ;;
                    assert_ b ;;;
                    Ret em
                  else Ret reply) ;;
        lift (deliver smtp reply)
      end
  end.
Lemma lift_run {A} (r : result A) s : arun (lift r) s = (s, r).
Proof. destruct r; reflexivity. Qed.
Lemma tails smtp me a m q body s :
  match arun (tail_reply me a m q body) s with
  | (s', Err e) => arun (tail_command smtp me a m q body) s = (s', Err e)
  | (s', Ok None) => arun (tail_command smtp me a m q body) s = (s', Ok (Posted [] None))
  | (s', Ok (Some rep)) => arun (tail_command smtp me a m q body) s = (s', deliver smtp rep) /\ (is_encrypted rep = Ok true <-> q = Some (L "encrypt"))
  end.
Proof.
  unfold tail_reply, tail_command. destruct (hget m (L "To")) as [to|]; [|reflexivity].
  destruct (negb (contains me to)); [reflexivity|].
  rewrite !arun_bind. destruct (format_others me _) as [cc|e]; cbn [lift]; [|reflexivity]. rewrite !arun_ret. cbv beta iota.
  rewrite !arun_bind. destruct (arun (make_ac_header a me) s) as [s1 [ac|e]]; [|reflexivity].
  destruct (hget m (L "From")) as [from|]; [|reflexivity]. rewrite !drawn_run. cbv zeta.
  set (rep := gen_reply _ _ _ _ _ _ _ _ _). assert (Hrep : is_encrypted rep = Ok false) by reflexivity. clearbody rep.
  assert (Hq : otext_eqb q (Some (L "encrypt")) = true <-> q = Some (L "encrypt")).
  { destruct q as [q|]; [|split; discriminate]. cbn [otext_eqb]. rewrite text_eqb_eq. split; congruence. }
  destruct (otext_eqb q (Some (L "encrypt"))).
  - rewrite !arun_bind. destruct (arun (encrypt_mime a rep (from :: cc)) (drawn s1)) as [s2 [[em khs]|e]]; [|reflexivity].
    rewrite !arun_bind. destruct (is_encrypted em) as [b|e] eqn:Eem; cbn [lift]; [|reflexivity]. rewrite !arun_ret. cbv beta iota.
    rewrite !arun_bind. destruct b; [|reflexivity]. cbn [assert_]. rewrite !arun_ret. cbv beta iota. rewrite lift_run. split; [reflexivity|]. rewrite Eem. tauto.
  - rewrite !arun_bind, !arun_ret. cbv beta iota. rewrite lift_run. split; [reflexivity|]. rewrite Hrep. split; [discriminate|]. intros H. apply Hq in H. discriminate.
Qed.

Lemma refines s smtp fb m : exists body,
  match arun (bot_reply fb body m) s with
  | (s', Err e) => arun (bot_command smtp fb m) s = (s', Err e)
  | (s', Ok None) => arun (bot_command smtp fb m) s = (s', Ok (Posted [] None))
  | (s', Ok (Some rep)) => arun (bot_command smtp fb m) s = (s', deliver smtp rep) /\
      exists me a i s0 s1 s2 infos kh q, get_delivered_to m fb = Ok me /\
        arun (get_account_from_emailadr me false) s = (s0, Ok (Some a)) /\
        arun (process_incoming a m false false) s0 = (s1, Ok (Some i)) /\
        ((replying_encrypted m = false /\ s2 = s1 /\ infos = None) \/
         (replying_encrypted m = true /\ exists dm x, arun (decrypt_mime a m) s1 = (s2, Ok (dm, x)) /\ infos = Some x)) /\
        arun (own_keyhandle a) s2 = (s2, Ok kh) /\
        snd (arun (recommend a [hget m (L "From")] (replying_encrypted m) None) s2) = Ok q /\
        body = join [10%N] (final_lines m me i (alog s1 (in_chain i)) infos kh q) /\ (is_encrypted rep = Ok true <-> q = Some (L "encrypt"))
  end.
Proof.
  unfold bot_reply, bot_command.
  destruct (get_delivered_to m fb) as [me|e] eqn:Eme; cbn [lift]; [|exists []; reflexivity].
  cbn [bind]. rewrite (found_lines m me). cbv zeta.
  destruct (arun (get_account_from_emailadr me false) s) as [s0 [[a|]|e]] eqn:Ef.
  2,3: exists []; rewrite !arun_bind, Ef; reflexivity.
  destruct (arun (process_incoming a m false false) s0) as [s1 [[i|]|e]] eqn:Ei.
  2,3: exists []; rewrite !arun_bind, Ef, !arun_bind, Ei; reflexivity.
  set (l := alog s1 (in_chain i)).
  destruct (text_eqb (get_content_type m) (L "multipart/encrypted")) eqn:Ect.
  - destruct (arun (decrypt_mime a m) s1) as [s2 [[dm x]|e]] eqn:Ed.
    2:{ exists []. rewrite !arun_bind, Ef, !arun_bind, Ei, read_run, !arun_bind, Ed. reflexivity. }
    destruct (arun (own_keyhandle a) s2) as [s2' [kh|e]] eqn:Ek.
    2:{ exists []. rewrite !arun_bind, Ef, !arun_bind, Ei, read_run, !arun_bind, Ed. cbn [bind]. rewrite ?arun_ret. rewrite !arun_bind, Ek. reflexivity. }
    destruct (own_keyhandle_ok _ _ _ _ Ek) as [-> _].
    destruct (arun (recommend a [hget m (L "From")] true None) s2) as [s3 [q|e]] eqn:Eq.
    2:{ exists []. rewrite !arun_bind, Ef, !arun_bind, Ei, read_run, !arun_bind, Ed. rewrite ?arun_ret. rewrite !arun_bind, Ek, !arun_bind, Eq. reflexivity. }
    exists (join [10%N] (final_lines m me i l (Some x) kh q)).
    rewrite !arun_bind, Ef, !arun_bind, Ei, read_run, !arun_bind, Ed. rewrite ?arun_ret. rewrite !arun_bind, Ek, !arun_bind, Eq.
    rewrite processed_lines by discriminate. rewrite !call_lines. cbn [sl_lines].
    fold l. match goal with |- context [join [10%N] ?ls] =>
      match ls with (_ ++ _) ++ _ => assert (Hls : ls = final_lines m me i l (Some x) kh q) end end.
    { unfold final_lines. rewrite (eq_refl : blk 0 [] = [[]]), (eq_refl : blk 0 (L "Your message was encrypted.") = [L "Your message was encrypted."]). 
      rewrite <- !app_assoc. reflexivity. }
    rewrite Hls. set (body := join [10%N] (final_lines m me i l (Some x) kh q)).
    fold (tail_command smtp me a m q body). fold (tail_reply me a m q body).
    pose proof (tails smtp me a m q body s3) as Ht. destruct (arun (tail_reply me a m q body) s3) as [s' [[rep|]|e]]; try exact Ht.
    split; [exact (proj1 Ht)|]. apply proj2 in Ht. exists me, a, i, s0, s1, s2, (Some x), kh, q. unfold replying_encrypted. rewrite Ect, Eq.
    do 3 (split; [first [reflexivity|assumption]|]). split; [right; split; [reflexivity|]; exists dm, x; auto|]. auto.
  - destruct (arun (own_keyhandle a) s1) as [s2' [kh|e]] eqn:Ek.
    2:{ exists []. rewrite !arun_bind, Ef, !arun_bind, Ei, read_run, !arun_bind, ?arun_ret. rewrite !arun_bind, Ek. reflexivity. }
    destruct (own_keyhandle_ok _ _ _ _ Ek) as [-> _].
    destruct (arun (recommend a [hget m (L "From")] false None) s1) as [s3 [q|e]] eqn:Eq.
    2:{ exists []. rewrite !arun_bind, Ef, !arun_bind, Ei, read_run, !arun_bind, ?arun_ret. rewrite !arun_bind, Ek, !arun_bind, Eq. reflexivity. }
    exists (join [10%N] (final_lines m me i l None kh q)).
    rewrite !arun_bind, Ef, !arun_bind, Ei, read_run, !arun_bind. rewrite ?arun_ret. rewrite !arun_bind, Ek, !arun_bind, Eq.
    rewrite processed_lines by discriminate. rewrite !call_lines. cbn [sl_lines].
    fold l. match goal with |- context [join [10%N] ?ls] =>
      match ls with (_ ++ _) ++ _ => assert (Hls : ls = final_lines m me i l None kh q) end end.
    { unfold final_lines. rewrite (eq_refl : blk 0 [] = [[]]). rewrite <- !app_assoc. reflexivity. }
    rewrite Hls. set (body := join [10%N] (final_lines m me i l None kh q)).
    fold (tail_command smtp me a m q body). fold (tail_reply me a m q body).
    pose proof (tails smtp me a m q body s3) as Ht. destruct (arun (tail_reply me a m q body) s3) as [s' [[rep|]|e]]; try exact Ht.
    split; [exact (proj1 Ht)|]. apply proj2 in Ht. exists me, a, i, s0, s1, s1, None, kh, q. unfold replying_encrypted. rewrite Ect, Eq.
    do 3 (split; [first [reflexivity|assumption]|]). split; [left; auto|]. auto.
Qed.

Lemma headers_blocks m names : Forall2 (fun n b => exists t, header_shown m n t /\ paragraph 1 t b) names (map (fun hn => blk 1 (header_text m hn)) names).
Proof. induction names as [|h names IH]; constructor; [|exact IH]. exists (header_text m h). split; [apply header_ok|apply para_blk]. Qed.
Lemma titled_blk t c : titled t c ([] :: blk 0 t ++ [[]] ++ c ++ [[]]).
Proof. exists (blk 0 t). split; [apply para_blk|reflexivity]. Qed.

Theorem c82_report : forall s smtp fb m, reachable s -> exists body,
  exists r, bot_ends s smtp fb m (after s (ABot fb body m)) r /\
  ((exists e, answer s (ABot fb body m) = Err e /\ r = Err e) \/
   (answer s (ABot fb body m) = Ok (OOptMsg None) /\ r = Ok (Posted [] None)) \/
   (exists rep me a own q ls, answer s (ABot fb body m) = Ok (OOptMsg (Some rep)) /\
      report s fb m me a own q ls /\ body = join [10%N] ls /\
      hget_all rep (L "From") = [me] /\ (forall o, r = Ok o <-> delivery smtp rep me o) /\
      (is_encrypted rep = Ok true <-> q = L "encrypt"))).
Proof.
  intros s smtp fb m Hr. pose proof (reachable_WF s Hr) as Hw.
  destruct (refines s smtp fb m) as [body H]. exists body. unfold bot_ends.
  assert (Hx : after s (ABot fb body m) = fst (arun (bot_reply fb body m) s) /\
    answer s (ABot fb body m) = match snd (arun (bot_reply fb body m) s) with Ok r => Ok (OOptMsg r) | Err e => Err e end).
  { unfold after, answer. cbn [exec]. rewrite arun_bind. destruct (arun (bot_reply fb body m) s) as [s1 [r|e]]; auto. }
  destruct Hx as [Ha Hb]. pose proof (c50_reply s fb body m) as H50.
  destruct (arun (bot_reply fb body m) s) as [s' [[rep|]|e]]; cbn [fst snd] in Ha, Hb; rewrite Ha.
  2:{ eexists. split; [exact H|]. right. left. auto. }
  2:{ eexists. split; [exact H|]. left. eauto. }
  destruct H as [H [me [a [i [s0 [s1 [s2 [infos [kh [q [B1 [B2 [B3 [B4 [B5 [B6 [B7 B8]]]]]]]]]]]]]]]]].
  exists (deliver smtp rep). split; [exact H|]. right. right.
  destruct (H50 _ Hr Hb) as [me' [to [C1 [C2 [C3 [from [ps [ts [C4 [C5 [C6 [C7 _]]]]]]]]]]]].
  pose proof (delivered_address _ _ _ B1) as Hme.
  assert (me' = me).
  { destruct Hme as [_ [[E1 E2]|[E1 [f [E2 [E3 E4]]]]]]; destruct C1 as [_ [[F1 F2]|[F1 [f' [F2 [F3 F4]]]]]]; congruence. }
  subst me'.
  assert (Hf : answer s (AFind me false) = Ok (OOptText (Some a))) by (rewrite (proj2 (answer_find s me false)), B2; reflexivity).
  destruct (from_emailadr_ok2 _ _ _ _ _ Hw B2) as [-> He].
  destruct (answer_incoming s a m false false Hw He) as [A1 A2]. rewrite B3 in A1, A2. cbn [fst snd] in A1, A2.
  pose proof (WF_after s (AIncoming a m false false) Hw) as Hw1. pose proof (incoming_exists s a m false false Hw He) as He1.
  destruct (incoming_some s a m false false i Hw He) as [I1 I2]; [rewrite B3; reflexivity|].
  rewrite A1 in Hw1, He1.
  assert (Hd : bot_decrypted a m s1 s2).
  { unfold replying_encrypted in B4. destruct B4 as [[D1 [-> _]]|[D1 [dm [x [D2 _]]]]].
    - left. split; [|reflexivity]. apply text_eqb_neq. exact D1.
    - right. split; [apply text_eqb_eq; exact D1|]. apply decrypt_is in D2 as [-> D2]; auto. split; [reflexivity|]. destruct (D2 _ eq_refl) as [d [inf D3]]. eauto. }
  destruct (bot_decrypted_WF _ _ _ _ Hw1 He1 Hd) as [Hw2 [He2 Hl]].
  rewrite C4 in B6.
  assert (Hq : exists q', q = Some q' /\ recommended s1 a [from] (replying_encrypted m) q').
  { pose proof He2 as [c [k [Hc _]]]. destruct (recommend_run s2 a c [Some from] (replying_encrypted m) None Hw2 Hc) as [r0 [R1 _]].
    rewrite R1 in B6. injection B6 as <-. exists r0. split; [reflexivity|]. apply (recommended_logs s1 s2); auto. }
  destruct Hq as [q' [-> Hq]].
  assert (Ho : exists c, own_of s1 a = Some (c, kh)).
  { apply own_keyhandle_ok in B5 as [_ [k [Hk ->]]]. destruct He2 as [c [k' [Hc Hk']]]. exists c.
    rewrite own_of_spec by auto. unfold config_of, keygen_of, alog in *. rewrite Hl in Hc, Hk. rewrite Hc, Hk. reflexivity. }
  destruct Ho as [c Ho].
  exists rep, me, a, kh, q', (final_lines m me i (alog s1 (in_chain i)) infos kh (Some q')).
  split; [exact Hb|]. split; [|split; [exact B7|]; split; [exact C5|]; split; [intros o; apply deliver_ok; exact C5|rewrite B8; split; congruence]].
  unfold report. rewrite A1. cbv zeta.
  exists i, from, c, (blk 1 (L "determined Delivered-To: " ++ me)), (map (fun hn => blk 1 (header_text m hn)) shown_headers), (head_lines m),
    (structure_lines m), (found_text i (alog s1 (in_chain i))), (blk 1 (found_text i (alog s1 (in_chain i)))),
    ([] :: blk 0 (L "processed incoming mail for account " ++ a ++ L ":") ++ [[]] ++ blk 1 (found_text i (alog s1 (in_chain i))) ++ [[]]),
    (match infos with Some x => L "Your message was encrypted." :: blk 0 (L "It was encrypted to the following keys:" ++ infos_text x) | None => [] end),
    (blk 0 (L "have a nice day, " ++ me)), (blk 0 (L "P.S.: my current key " ++ kh ++ L " is in the Autocrypt header of this reply.")),
    (blk 0 (L "P.P.S.: For this reply the encryption recommendation is " ++ q')).
  do 6 (split; [assumption|]). split; [apply para_blk|]. split; [apply headers_blocks|]. split; [apply titled_blk|].
  split.
  { eexists _, _. split; [apply para_blk|]. split; [|reflexivity]. destruct (render_mime_structure parts_shown m); apply para_blk. }
  split.
  { unfold finding, found_text. rewrite I2. destruct (p_error (in_pah i)) as [[|c0 e]|]; [|reflexivity|];
      eexists; (split; [apply peer_of_spec; assumption|reflexivity]). }
  split; [apply para_blk|]. split; [apply titled_blk|].
  split.
  { destruct B4 as [[D1 [_ ->]]|[D1 [dm [x [D2 ->]]]]]; [left; auto|]. right. split; [exact D1|].
    rewrite answer_decrypt in D2 by auto. injection D2 as _ D2.
    destruct (answer s1 (ADecrypt a m)) as [[]|]; try discriminate. injection D2 as -> ->.
    do 3 eexists. split; [reflexivity|]. split; [apply para_blk|reflexivity]. }
  do 3 (split; [apply para_blk|]).
  unfold final_lines. rewrite I1. rewrite <- !app_assoc. reflexivity.
Qed.

Theorem c82_last_line : forall s fb m me a own q ls, reachable s -> report s fb m me a own q ls ->
  exists before, ls = before ++ [L "P.P.S.: For this reply the encryption recommendation is " ++ q].
Proof.
  intros s fb m me a own q ls Hr H. unfold report in H. cbv zeta in H.
  destruct H as [i [from [c [x1 [x2 [x3 [x4 [x5 [x6 [x7 [x8 [x9 [ps [pps H]]]]]]]]]]]]]].
  destruct H as [_ [_ [_ [Ho [_ [Hq [_ [_ [_ [_ [_ [_ [_ [_ [_ [_ [Hp ->]]]]]]]]]]]]]]]]].
  set (s1 := after s (AIncoming a m false false)) in *.
  assert (Hr1 : reachable s1) by (apply reachable_after; exact Hr).
  assert (Ha : has_account s1 a) by (unfold has_account; rewrite Ho; discriminate).
  destruct (c22 s1 a [from] (replying_encrypted m) Hr1 Ha) as [_ [r [n [H1 H2]]]].
  assert (r = q) as -> by (unfold recommended in *; congruence).
  assert (pps = [L "P.P.S.: For this reply the encryption recommendation is " ++ q]) as ->.
  { destruct Hp as [raw [Hb ->]]. apply GpgMoreProofs.c78_lines in Hb. destruct H2; vm_compute in Hb; subst raw; reflexivity. }
  rewrite !app_assoc. eexists. reflexivity.
Qed.

Theorem c82_recipients : forall s smtp fb m s' lines host port sender rcpts t, reachable s ->
  bot_ends s smtp fb m s' (Ok (Posted lines (Some (host, port, sender, rcpts, t)))) ->
  bot_address m fb sender /\ exists from ps ts, hget m (L "From") = Some from /\
    rcpts = map snd (getaddresses (from :: cc_field ts)) /\ formatted ps ts /\
    (set_laws -> NoDup ps /\ forall rn x, In (rn, x) ps <-> In (rn, x) (addressed m) /\ x <> [] /\ x <> sender).
Proof.
  intros s smtp fb m s' lines host port sender rcpts t Hr H.
  destruct (c82_report s smtp fb m Hr) as [body [r [H1 H2]]]. unfold bot_ends in *. rewrite H in H1. injection H1 as Hs <-.
  destruct H2 as [[e [_ H2]]|[[_ H2]|[rep [me [a [own [q [ls [H2 [H3 [H4 [H5 [H6 _]]]]]]]]]]]]]; try discriminate.
  destruct (proj1 (H6 _) eq_refl) as [t' [_ [[_ H7]|[x [h [p [n [_ [_ [_ [_ [_ [_ H7]]]]]]]]]]]]]; [discriminate|].
  injection H7 as _ _ _ -> -> _.
  destruct (c50_reply s fb body m _ Hr H2) as [me' [to [C1 [C2 [C3 [from [ps [ts [C4 [C5 [C6 [C7 [C8 C9]]]]]]]]]]]]].
  rewrite C5 in H5. injection H5 as ->. split; [exact C1|]. exists from, ps, ts. split; [exact C4|]. split; [|auto].
  unfold addressed. assert (HT : hget_all rep (L "to") = hget_all rep (L "To")) by reflexivity.
  assert (HC : hget_all rep (L "cc") = hget_all rep (L "Cc")) by reflexivity.
  rewrite HT, HC, C6, C7. reflexivity.
Qed.
End BotProofs.
