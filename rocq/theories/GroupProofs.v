(** Proofs for C92. *)
From Verif Require Import Base PyStr Group.
From Coq Require Import Sorting.Permutation Sorting.Sorted.

Section GroupProofs.
Context {C : Type}.
Implicit Types (g : group C) (cs : list (cmd C)).

Lemma texts_eqb_spec l : forall l', texts_eqb l l' = true <-> l = l'.
Proof.
  induction l as [|x l IH]; intros [|y l']; cbn [texts_eqb]; try (split; congruence). split.
  - intros H. apply andb_true_iff in H as [H1 H2]. destruct (text_eqb_spec x y) as [->|]; [|discriminate]. apply IH in H2 as ->. reflexivity.
  - intros [= -> ->]. rewrite text_eqb_refl. apply IH. reflexivity.
Qed.
Lemma all_names_some l ns : all_names l = Some ns <-> l = map Some ns.
Proof.
  revert ns. induction l as [|[n|] l IH]; intros ns; cbn [all_names].
  - destruct ns; cbn; split; congruence.
  - split.
    + destruct (all_names l) as [ns'|] eqn:En; [|discriminate]. intros [= <-]. cbn [map]. f_equal. apply IH. reflexivity.
    + destruct ns as [|n' ns]; [discriminate|]. cbn [map]. intros [= -> H]. rewrite (proj2 (IH ns) H). reflexivity.
  - split; [discriminate|]. destruct ns; discriminate.
Qed.

Lemma add_list g c : gr_list (fst (add_command g c)) = Some (match gr_list g with Some l => l | None => [] end ++ [cmd_name c]).
Proof. unfold add_command. destruct (cmd_name c); reflexivity. Qed.
Lemma add_all_list cs : forall g l, gr_list g = Some l -> gr_list (add_all g cs) = Some (l ++ map cmd_name cs).
Proof.
  induction cs as [|c cs IH]; intros g l H; cbn [add_all fold_left map]; [rewrite app_nil_r; exact H|].
  fold (add_all (fst (add_command g c)) cs). rewrite (IH _ (l ++ [cmd_name c])); [rewrite <- app_assoc; reflexivity|]. rewrite add_list, H. reflexivity.
Qed.
Lemma all_list cs : gr_list (add_all group0 cs) = match cs with [] => None | _ => Some (map cmd_name cs) end.
Proof.
  destruct cs as [|c cs]; [reflexivity|]. cbn [add_all fold_left]. fold (add_all (fst (add_command group0 c)) cs).
  rewrite (add_all_list cs _ [cmd_name c]); [reflexivity|]. rewrite add_list. reflexivity.
Qed.
Lemma add_keys g c n : In n (dkeys (gr_commands (fst (add_command g c)))) <-> cmd_name c = Some n \/ In n (dkeys (gr_commands g)).
Proof.
  unfold add_command. destruct (cmd_name c) as [n'|]; cbn [fst gr_commands].
  - rewrite dkeys_dset_In. intuition congruence.
  - intuition congruence.
Qed.
Lemma all_keys cs : forall g n, In n (dkeys (gr_commands (add_all g cs))) <-> In (Some n) (map cmd_name cs) \/ In n (dkeys (gr_commands g)).
Proof.
  induction cs as [|c cs IH]; intros g n; cbn [add_all fold_left map In]; [tauto|]. fold (add_all (fst (add_command g c)) cs).
  rewrite IH, add_keys. tauto.
Qed.
Lemma all_NoDup cs : forall g, NoDup (dkeys (gr_commands g)) -> NoDup (dkeys (gr_commands (add_all g cs))).
Proof.
  induction cs as [|c cs IH]; intros g H; [exact H|]. cbn [add_all fold_left]. apply IH. unfold add_command.
  destruct (cmd_name c); [apply dset_NoDup|]; exact H.
Qed.

(** equal sorted lists *)
Lemma sorted_unique l : forall l', Permutation l l' -> StronglySorted text_le l -> StronglySorted text_le l' -> l = l'.
Proof.
  induction l as [|x l IH]; intros l' Hp H1 H2; [apply Permutation_nil in Hp; auto|].
  destruct l' as [|y l']; [apply Permutation_sym, Permutation_nil in Hp; discriminate|].
  inversion_clear H1 as [|? ? S1 F1]. inversion_clear H2 as [|? ? S2 F2]. rewrite Forall_forall in F1, F2.
  assert (x = y) as ->.
  { pose proof (Permutation_in x Hp (or_introl eq_refl)) as Hx. pose proof (Permutation_in y (Permutation_sym Hp) (or_introl eq_refl)) as Hy.
    destruct Hx as [->|Hx]; [reflexivity|]. destruct Hy as [->|Hy]; [reflexivity|].
    apply text_leb_antisym; [apply F1; exact Hy|apply F2; exact Hx]. }
  f_equal. apply IH; auto. eapply Permutation_cons_inv; exact Hp.
Qed.
Lemma sorted_eq l l' : sorted l = sorted l' <-> Permutation l l'.
Proof.
  split.
  - intros H. eapply Permutation_trans; [apply sorted_perm|]. rewrite H. apply Permutation_sym, sorted_perm.
  - intros H. apply sorted_unique; [|apply sorted_sorted|apply sorted_sorted].
    eapply Permutation_trans; [apply Permutation_sym, sorted_perm|]. eapply Permutation_trans; [exact H|apply sorted_perm].
Qed.

Theorem c92_list : forall (cs : list (cmd C)) l, list_commands (add_all group0 cs) = Ok l <-> cs <> [] /\ map cmd_name cs = map Some l /\ NoDup l.
Proof.
  intros cs l. unfold list_commands. rewrite all_list. destruct cs as [|c cs]; [split; [discriminate|intros [H _]; congruence]|].
  set (d := c :: cs). assert (Hk : NoDup (dkeys (gr_commands (add_all group0 d)))) by (apply all_NoDup; constructor).
  assert (Hi : forall n, In n (dkeys (gr_commands (add_all group0 d))) <-> In (Some n) (map cmd_name d)).
  { intros n. rewrite all_keys. cbn. tauto. }
  destruct (all_names (map cmd_name d)) as [ns|] eqn:En.
  - apply all_names_some in En. destruct (texts_eqb _ _) eqn:Et.
    + apply texts_eqb_spec in Et. apply sorted_eq in Et. split.
      * intros [= <-]. split; [discriminate|]. split; [exact En|].
        eapply Permutation_NoDup; [exact Et|]. eapply Permutation_NoDup; [apply sorted_perm|exact Hk].
      * intros [_ [H _]]. rewrite En in H. f_equal. revert H. clear. revert l. induction ns as [|n ns IH]; intros [|m l]; cbn; try congruence.
        intros [= -> H]. f_equal. apply IH. exact H.
    + split; [discriminate|]. intros [_ [H Hn]]. exfalso.
      assert (texts_eqb (sorted (sorted (dkeys (gr_commands (add_all group0 d))))) (sorted ns) = true); [|congruence].
      assert (ns = l) as ->. { rewrite En in H. revert H. clear. revert l. induction ns as [|n ns IH]; intros [|m l]; cbn; try congruence.
        intros [= -> H]. f_equal. apply IH. exact H. }
      apply texts_eqb_spec, sorted_eq. eapply Permutation_trans; [apply Permutation_sym, sorted_perm|].
      apply NoDup_Permutation; auto. intros x. rewrite Hi, H. rewrite in_map_iff. split; [intros [y [[= ->] Hy]]; exact Hy|eauto].
  - split; [destruct (_ <=? _)%nat; discriminate|]. intros [_ [H _]]. exfalso. rewrite (proj2 (all_names_some _ l) H) in En. discriminate.
Qed.

(** what is run *)
Definition latest (cs : list (cmd C)) (n : text) (d : C) : Prop :=
  exists cs1 c cs2, cs = cs1 ++ c :: cs2 /\ cmd_name c = Some n /\ cmd_does c = d /\ forall c', In c' cs2 -> cmd_name c' <> Some n.
Lemma add_all_app g cs1 cs2 : add_all g (cs1 ++ cs2) = add_all (add_all g cs1) cs2.
Proof. apply fold_left_app. Qed.
Lemma others_keep cs n : forall g, (forall c, In c cs -> cmd_name c <> Some n) -> get_command (add_all g cs) n = get_command g n.
Proof.
  induction cs as [|c cs IH]; intros g H; [reflexivity|]. cbn [add_all fold_left]. fold (add_all (fst (add_command g c)) cs).
  rewrite IH by (intros c' Hc; apply H; right; exact Hc). unfold add_command, get_command. specialize (H c (or_introl eq_refl)).
  destruct (cmd_name c) as [n'|]; cbn [fst gr_commands]; [|reflexivity]. apply dget_dset_other. congruence.
Qed.
Lemma latest_or cs n : (exists d, latest cs n d) \/ forall c, In c cs -> cmd_name c <> Some n.
Proof.
  induction cs as [|c cs IH]; [right; intros c []|]. destruct IH as [[d [cs1 [c' [cs2 [-> H]]]]]|H]; [left; exists d, (c :: cs1), c', cs2; auto|].
  destruct (cmd_name c) as [n'|] eqn:En; [destruct (text_eqb_spec n' n) as [->|Hn]|].
  - left. exists (cmd_does c), [], c, cs. auto.
  - right. intros c' [<-|Hc]; [congruence|auto].
  - right. intros c' [<-|Hc]; [congruence|auto].
Qed.
Lemma latest_get cs n d : latest cs n d -> get_command (add_all group0 cs) n = Some d.
Proof.
  intros [cs1 [c [cs2 [-> [H1 [<- H2]]]]]]. rewrite add_all_app. cbn [add_all fold_left]. fold (add_all (fst (add_command (add_all group0 cs1) c)) cs2).
  fold (add_all group0 cs1). rewrite (others_keep cs2 n) by exact H2. unfold add_command, get_command. rewrite H1. apply dget_dset_same.
Qed.
Theorem c92_run : forall (cs : list (cmd C)) n d, get_command (add_all group0 cs) n = Some d <-> latest cs n d.
Proof.
  intros cs n d. split; [|apply latest_get]. intros H. destruct (latest_or cs n) as [[d' Hd]|Hn].
  - pose proof (latest_get _ _ _ Hd). congruence.
  - rewrite (others_keep cs n group0 Hn) in H. discriminate.
Qed.
Theorem c92_plugins : forall (bs ps : list (cmd C)) names, map cmd_name bs = map Some builtin -> map cmd_name ps = map Some names ->
  (NoDup names /\ (forall n, In n names -> ~ In n builtin) <-> list_commands (add_all group0 (bs ++ ps)) = Ok (builtin ++ names)).
Proof.
  intros bs ps names Hb Hp. rewrite c92_list. rewrite map_app, Hb, Hp, <- map_app. split.
  - intros [H1 H2]. split; [intros H; apply app_eq_nil in H as [-> _]; discriminate|]. split; [reflexivity|].
    assert (Hnb : NoDup builtin) by (repeat (constructor; [vm_compute; intuition discriminate|]); constructor).
    revert H1 H2 Hnb. generalize builtin as b. clear. intros b Hn Hd Hb. induction Hb as [|x b Hx Hb IH]; [exact Hn|].
    cbn [app]. constructor; [|apply IH; intros n H1 H2; apply (Hd n H1); right; exact H2]. rewrite in_app_iff. intros [H|H]; [auto|]. apply (Hd x H). left. reflexivity.
  - intros [_ [_ H]]. revert H. generalize builtin as b. clear. intros b. induction b as [|x b IH]; cbn [app]; intros H; [split; [exact H|intros n _ []]|].
    inversion_clear H as [|? ? H1 H2]. destruct (IH H2) as [I1 I2]. split; [exact I1|]. intros n Hn [->|Hb]; [apply H1, in_or_app; auto|exact (I2 n Hn Hb)].
Qed.
End GroupProofs.
