(** C24-C28: Autocrypt header values.  Statements only; proofs are in HeaderProofs.v.
    [lists_attrs v attrs] says how attributes are written down, [states] and [rejected] are
    the two outcomes of parsing. *)
From Coq Require Import Permutation.
From Verif Require Import Base PyStr Base64 Env Mime Spec HeaderSpec HeaderProofs Toy Demo.
#[local] Existing Instance E0.

(** ** C24 *)
Theorem C24_round_trip : forall (E : Env) addr key pref, is_bytes key = true -> key <> [] ->
  ~ In 59%N (norm addr) -> norm (strip (norm addr)) = norm addr ->
  pref = L "nopreference" \/ pref = L "mutual" ->
  exists v, make_ac_header_value addr key pref = Ok v /\
    parse_ac_headervalue v = Ok (PAH (Some key) (Some (norm addr)) (Some pref) (Some []) None).
Proof. exact @c24. Qed.
Print Assumptions C24_round_trip.

Theorem C24_other_preferences_are_rejected : forall (E : Env) addr key pref, is_bytes key = true -> key <> [] ->
  ~ In 59%N (norm addr) -> ~ In 59%N pref -> strip pref <> L "nopreference" -> strip pref <> L "mutual" ->
  exists v, make_ac_header_value addr key pref = Ok v /\ rejected v.
Proof. exact @c24_other. Qed.
Print Assumptions C24_other_preferences_are_rejected.

Example C24_example :
  is_bytes keyA = true /\ keyA <> [] /\ ~ In 59%N (norm (L "Alice@a.org")) /\
  norm (strip (norm (L "Alice@a.org"))) = norm (L "Alice@a.org") /\
  exists v, make_ac_header_value (L "Alice@a.org") keyA (L "mutual") = Ok v /\
    parse_ac_headervalue v = Ok (PAH (Some keyA) (Some (L "alice@a.org")) (Some (L "mutual")) (Some []) None).
Proof.
  split; [reflexivity|]. split; [discriminate|]. split; [vm_compute; intuition discriminate|]. split; [vm_compute; reflexivity|].
  eexists. split; vm_compute; reflexivity.
Qed.

(** An address with a semicolon does not survive. *)
Theorem C24_any_address_refuted : exists (E : Env) addr key v,
  is_bytes key = true /\ key <> [] /\ norm (strip (norm addr)) = norm addr /\
  make_ac_header_value addr key (L "mutual") = Ok v /\ rejected v.
Proof.
  exists E0, (L "a;b@a.org"), keyA. eexists. split; [reflexivity|]. split; [discriminate|].
  split; [vm_compute; reflexivity|]. split; [vm_compute; reflexivity|].
  eexists. split; vm_compute; reflexivity.
Qed.
Print Assumptions C24_any_address_refuted.

(** ** C25.  Full statement: [forall v, exists p, parse_ac_headervalue v = Ok p].  It fails for
    a value with an attribute without name; the only other outcome is then an IndexError. *)
Theorem C25_never_raises_refuted : exists (E : Env) v, parse_ac_headervalue v = Err IndexError.
Proof. exists E0, (L "addr=a@a.org; =x"). vm_compute. reflexivity. Qed.
Print Assumptions C25_never_raises_refuted.

Theorem C25_never_raises_partial : forall (E : Env) v,
  (forall l w r, v = l ++ w ++ 61%N :: r -> blank w -> ~ (l = [] \/ exists l', l = l' ++ [59%N])) ->
  exists p, parse_ac_headervalue v = Ok p.
Proof. exact @c25. Qed.
Print Assumptions C25_never_raises_partial.

Theorem C25_only_nameless_attributes_raise_partial : forall (E : Env) v e, parse_ac_headervalue v = Err e ->
  e = IndexError /\ exists l w r, v = l ++ w ++ 61%N :: r /\ blank w /\ (l = [] \/ exists l', l = l' ++ [59%N]).
Proof. exact @c25_raises. Qed.
Print Assumptions C25_only_nameless_attributes_raise_partial.

Example C25_example :
  (forall l w r, L "a=b" = l ++ w ++ 61%N :: r -> blank w -> ~ (l = [] \/ exists l', l = l' ++ [59%N])) /\
  map (fun v => match parse_ac_headervalue v with Ok p => p_error p | Err _ => None end)
    [L "a=b"; L ""; L ";;"; L "addr"; L "keydata=!"; L "addr=a@a.org; keydata=A"; L "addr=a@a.org; keydata="] =
  [Some (L "unknown critical attr 'a'"); Some (L "critical attr 'keydata' missing"); Some (L "critical attr 'keydata' missing");
   Some (L "malformed setting"); Some (L "critical attr 'addr' missing"); Some (L "failed to decode keydata"); None].
Proof.
  split; [|vm_compute; reflexivity].
  intros l w r H Hw Hl. destruct l as [|c1 l].
  - destruct w as [|c w]; [discriminate H|]. injection H as <- _. specialize (Hw 97%N (or_introl eq_refl)). discriminate Hw.
  - destruct Hl as [Hl|[l' Hl]]; [discriminate|].
    assert (Hin : In 59%N (L "a=b")) by (rewrite H, Hl; apply in_or_app; left; apply in_or_app; right; left; reflexivity).
    vm_compute in Hin. intuition discriminate.
Qed.

(** ** C26 *)
Theorem C26_meaning : forall (E : Env) v attrs, lists_attrs v attrs ->
  (valid_attrs attrs /\ exists a k key,
     last_value (L "addr") attrs = Some a /\ last_value (L "keydata") attrs = Some k /\ b64decode (no_spaces k) = Ok key /\
     states v (norm a) key (pref_stated attrs) (underscored attrs)) \/
  (~ valid_attrs attrs /\ rejected v).
Proof. exact @c26_meaning. Qed.
Print Assumptions C26_meaning.

Theorem C26_critical_attributes_reject : forall (E : Env) v attrs n x, lists_attrs v attrs -> In (n, x) attrs ->
  ~ In n [L "addr"; L "prefer-encrypt"; L "keydata"] -> startswith (L "_") n = false -> rejected v.
Proof. exact @c26_critical. Qed.
Print Assumptions C26_critical_attributes_reject.

Theorem C26_underscore_attributes_do_not_matter : forall (E : Env) v w l1 u x l2, startswith (L "_") u = true ->
  lists_attrs v (l1 ++ l2) -> lists_attrs w (l1 ++ (u, x) :: l2) ->
  (rejected v /\ rejected w) \/
  (exists a k p ex ex', states v a k p ex /\ states w a k p ex' /\ forall n, n <> u -> ex n = ex' n).
Proof. exact @c26_underscore. Qed.
Print Assumptions C26_underscore_attributes_do_not_matter.

Theorem C26_order_does_not_matter : forall (E : Env) v w l l', NoDup (map fst l) -> Permutation l l' ->
  lists_attrs v l -> lists_attrs w l' ->
  (rejected v /\ rejected w) \/ (exists a k p ex, states v a k p ex /\ states w a k p ex).
Proof. exact @c26_order. Qed.
Print Assumptions C26_order_does_not_matter.

Example C26_example :
  lists_attrs (L " _x = 1; addr=b@b.org ;; keydata= QU JD") [(L "_x", L "1"); (L "addr", L "b@b.org"); (L "keydata", L "QU JD")] /\
  parse_ac_headervalue (L " _x = 1; addr=b@b.org ;; keydata= QU JD") =
    Ok (PAH (Some (L "ABC")) (Some (L "b@b.org")) (Some (L "nopreference")) (Some [(L "_x", L "1")]) None) /\
  parse_ac_headervalue (L "keydata=QUJD; addr=b@b.org") =
    Ok (PAH (Some (L "ABC")) (Some (L "b@b.org")) (Some (L "nopreference")) (Some []) None) /\
  rejected (L "x=1; addr=b@b.org; keydata=QUJD").
Proof.
  split; [|split; [vm_compute; reflexivity | split; [vm_compute; reflexivity | eexists; split; vm_compute; reflexivity]]].
  exists [L " _x = 1"; L " addr=b@b.org "; L ""; L " keydata= QU JD"]. split; [|reflexivity].
  apply seg_attr.
  { exists (L " "), (L " "), (L " "), []. split; [reflexivity|].
    do 4 (split; [first [apply blank_space | apply blank_nil]|]). split; [discriminate|].
    split; [apply trimmed_name; reflexivity|]. split; [apply trimmed_name; reflexivity|]. vm_compute. intuition discriminate. }
  apply seg_attr.
  { exists (L " "), [], [], (L " "). split; [reflexivity|].
    do 4 (split; [first [apply blank_space | apply blank_nil]|]). split; [discriminate|].
    split; [apply trimmed_name; reflexivity|]. split; [apply trimmed_name; reflexivity|]. vm_compute. intuition discriminate. }
  apply seg_blank; [apply blank_nil|].
  apply seg_attr; [|constructor].
  exists (L " "), [], (L " "), []. split; [reflexivity|].
  do 4 (split; [first [apply blank_space | apply blank_nil]|]). split; [discriminate|].
  split; [apply trimmed_name; reflexivity|]. split; [exact (strip_trimmed (L "QU JD"))|]. vm_compute. intuition discriminate.
Qed.

(** ** C27 *)
Theorem C27_folding : forall (E : Env) addr key pref v, is_bytes key = true -> make_ac_header_value addr key pref = Ok v ->
  exists before lines, v = before ++ L "keydata=" ++ [10%N] ++ join [10%N] (map (fun l => L "  " ++ l) lines) /\
    concat lines = b64encode key /\
    (forall l, In l lines -> l <> [] /\ (length (L "  " ++ l) <= 80)%nat /\ forall c, In c l -> is_space c = false) /\
    (forall l c d r, lines = l ++ c :: d :: r -> length (L "  " ++ c) = 80%nat).
Proof. exact @c27. Qed.
Print Assumptions C27_folding.

(** a key of 200 bytes: three full lines and one of 34 characters *)
Example C27_example :
  is_bytes (repeat 255%N 200) = true /\
  exists v, make_ac_header_value (L "a@a.org") (repeat 255%N 200) (L "mutual") = Ok v /\
    map (@length N) (split_on 10 v) = [45; 80; 80; 80; 36]%nat.
Proof. split; [reflexivity|]. eexists. split; vm_compute; reflexivity. Qed.

(** ** C28 *)
Theorem C28_lossless : forall b s, is_bytes b = true -> no_spaces s = b64encode b ->
  b64decode (join [] (split_ws s)) = Ok b.
Proof. exact c28. Qed.
Print Assumptions C28_lossless.

Theorem C28_keys_in_headers : forall (E : Env) v attrs k b, is_bytes b = true -> lists_attrs v attrs -> valid_attrs attrs ->
  last_value (L "keydata") attrs = Some k -> no_spaces k = b64encode b ->
  exists p, parse_ac_headervalue v = Ok p /\ has_error p = false /\ p_keydata p = Some b.
Proof. exact @c28_header. Qed.
Print Assumptions C28_keys_in_headers.

Theorem C28_different_keys_look_different : forall a b, is_bytes a = true -> is_bytes b = true ->
  b64encode a = b64encode b -> a = b.
Proof. exact c28_injective. Qed.
Print Assumptions C28_different_keys_look_different.

Example C28_example :
  map (fun b => b64encode b) [[]; [0]; [255; 254]; [1; 2; 3]]%N = [L ""; L "AA=="; L "//4="; L "AQID"] /\
  no_spaces ([10; 32]%N ++ L "//" ++ [9; 8195]%N ++ L "4 =") = b64encode [255; 254]%N /\
  b64decode (join [] (split_ws ([10; 32]%N ++ L "//" ++ [9; 8195]%N ++ L "4 ="))) = Ok [255; 254]%N.
Proof. vm_compute. auto. Qed.
