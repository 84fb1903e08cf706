(** Strings as keys of AVL trees. *)
From Verif Require Import Base Heap KeyModel KeySpec KeyStrings TreeKeyModel TreeKeySpec.
Open Scope list_scope.
Open Scope Z_scope.

Notation text := (Forall (fun c => byte c /\ c <> 0)).

Lemma compare_flip s : forall t, text s -> text t -> (compare_strings s t < 0 <-> compare_strings t s > 0).
Proof.
  induction s as [|c s IH]; intros [|d t] Hs Ht; cbn [compare_strings]; try lia.
  - inversion_clear Hs as [|? ? _ Hs']. inversion_clear Ht as [|? ? _ Ht']. rewrite (Z.eqb_sym d c).
    destruct (c =? d) eqn:E; [apply IH; assumption|lia].
Qed.
Lemma compare_trans s : forall t u, text s -> text t -> text u ->
  compare_strings s t <= 0 -> compare_strings t u <= 0 -> compare_strings s u <= 0.
Proof.
  induction s as [|c s IH]; intros [|d t] [|e u] Hs Ht Hu; cbn [compare_strings];
    try (inversion_clear Hs as [|? ? [Bs Ns] Hs']; unfold byte in Bs); try (inversion_clear Ht as [|? ? [Bt Nt] Ht']; unfold byte in Bt);
    try (inversion_clear Hu as [|? ? [Bu Nu] Hu']; unfold byte in Bu); try lia.
  destruct (c =? d) eqn:E1, (d =? e) eqn:E2, (c =? e) eqn:E3; try lia. apply IH; assumption.
Qed.
Lemma strings_comparing cmp obj : comparing c_string ask_strcmp cmp obj compare_strings.
Proof.
  constructor.
  - intros s t Hs Ht. apply compare_flip; apply readable_text; assumption.
  - intros s t u Hs Ht Hu. apply compare_trans; apply readable_text; assumption.
  - intros h k s l t (b & G & E) (b' & G' & E'). destruct (c_string_shape _ _ E) as (rest & -> & F).
    destruct (c_string_shape _ _ E') as (rest' & -> & F').
    unfold ask_strcmp, bnd, ld_slots, lift. rewrite G, G', (strcmp_ok s t rest rest' F F'). reflexivity.
Qed.

Lemma before_nil t : comes_before [] t <-> t <> [].
Proof.
  split.
  - intros [(c & r & ->)|(p & c & d & s' & t' & E & _)]; [discriminate|destruct p; discriminate].
  - intros N. destruct t as [|c r]; [contradiction|]. left. exists c, r. reflexivity.
Qed.
Lemma before_no_nil s : ~ comes_before s [].
Proof. intros [(c & r & E)|(p & c & d & s' & t' & _ & E & _)]; [destruct s|destruct p]; discriminate. Qed.
Lemma before_cons c s d t : comes_before (c :: s) (d :: t) <-> c < d \/ (c = d /\ comes_before s t).
Proof.
  split.
  - intros [(e & r & E)|(p & e & f & s' & t' & E & F & L)].
    + cbn [app] in E. injection E as -> ->. right. split; [reflexivity|]. left. exists e, r. reflexivity.
    + destruct p as [|g p].
      * injection E as -> ->. injection F as -> ->. left; exact L.
      * injection E as -> ->. injection F as -> ->. right. split; [reflexivity|]. right. exists p, e, f, s', t'. auto.
  - intros [L|[-> [(e & r & ->)|(p & e & f & s' & t' & -> & -> & L)]]].
    + right. exists [], c, d, s, t. auto.
    + left. exists e, r. reflexivity.
    + right. exists (d :: p), e, f, s', t'. auto.
Qed.
Lemma dictionary s : forall t, text s -> text t -> (compare_strings s t < 0 <-> comes_before s t).
Proof.
  induction s as [|c s IH]; intros [|d t] Hs Ht.
  - split; [cbn; lia|]. intros B. exfalso. exact (before_no_nil _ B).
  - rewrite before_nil. inversion_clear Ht as [|? ? [B N] _]. unfold byte in B. cbn [compare_strings]. split; [discriminate|lia].
  - inversion_clear Hs as [|? ? [B N] _]. unfold byte in B. cbn [compare_strings]. split; [lia|]. intros L. exfalso. exact (before_no_nil _ L).
  - inversion_clear Hs as [|? ? _ Hs']. inversion_clear Ht as [|? ? _ Ht']. rewrite before_cons. cbn [compare_strings].
    destruct (c =? d) eqn:E; [rewrite (IH t Hs' Ht')|]; [|split; [left; lia|intros [L|[L _]]; lia]].
    split; [intros L; right; split; [lia|exact L]|]. intros [L|[_ L]]; [lia|exact L].
Qed.
Lemma strings_dictionary s t : readable c_string s -> readable c_string t -> (compare_strings s t < 0 <-> comes_before s t).
Proof. intros Hs Ht. apply dictionary; apply readable_text; assumption. Qed.
