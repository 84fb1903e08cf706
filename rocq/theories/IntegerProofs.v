(** Proofs: integers, hash functions, fscalloc. *)
From Verif Require Import Base IntegerModel.
From Coq Require Import ZifyBool ZifyNat.
Ltac Zify.zify_post_hook ::= Z.div_mod_to_equations.

Lemma intptr_round v : - 2 ^ 63 <= v < 2 ^ 63 -> as_intptr (as_integer v) = v.
Proof.
  intros H. unfold as_intptr, as_integer, s64, sgn, u64. change (64 - 1) with 63.
  destruct (_ <? _) eqn:E; lia.
Qed.
Lemma uintptr_round v : 0 <= v < 2 ^ 64 -> as_uintptr (as_unsigned v) = v.
Proof. intros H. unfold as_uintptr, as_unsigned. rewrite !u64_small; auto; rewrite u64_small; auto. Qed.

(** -1, 0, 1 according to an order. *)
Definition three_way (x y : Z) : Z := match x ?= y with Lt => -1 | Eq => 0 | Gt => 1 end.

Lemma integer_cmp_ok x y : - 2 ^ 63 <= x < 2 ^ 63 -> - 2 ^ 63 <= y < 2 ^ 63 ->
  integer_cmp (as_integer x) (as_integer y) = three_way x y.
Proof.
  intros Hx Hy. unfold integer_cmp, three_way. rewrite !intptr_round by assumption.
  destruct (Z.compare_spec x y); destruct (x <? y) eqn:?; destruct (x >? y) eqn:?; lia.
Qed.
Lemma unsigned_cmp_ok x y : 0 <= x < 2 ^ 64 -> 0 <= y < 2 ^ 64 ->
  unsigned_cmp (as_unsigned x) (as_unsigned y) = three_way x y.
Proof.
  intros Hx Hy. unfold unsigned_cmp, three_way. rewrite !uintptr_round by assumption.
  assert (E : u64 (as_intptr (as_unsigned x)) = x).
  { unfold as_unsigned. rewrite (u64_small x) by assumption.
    unfold as_intptr, s64, sgn, u64. change (64 - 1) with 63. destruct (_ <? _) eqn:E; lia. }
  rewrite E.
  destruct (Z.compare_spec x y); destruct (x <? y) eqn:?; destruct (x >? y) eqn:?; lia.
Qed.

(** Polynomial hash: sum over i of (value of byte i + 9999991) * 9973^(n-1-i). *)
Fixpoint poly (vals : list Z) : Z :=
  match vals with
  | [] => 0
  | v :: r => (v + 9999991) * 9973 ^ zlen r + poly r
  end.

Lemma poly_app l v : poly (l ++ [v]) = poly l * 9973 + (v + 9999991).
Proof.
  induction l as [|x l IH].
  - cbn [poly app]. rewrite zlen_nil. lia.
  - cbn [poly app]. rewrite IH, zlen_app, zlen_cons, zlen_nil.
    rewrite Z.pow_add_r by (pose proof (zlen_nonneg l); lia). lia.
Qed.

Lemma u64_step a v : u64 (u64 a * 9973 + v + 9999991) = u64 (a * 9973 + (v + 9999991)).
Proof.
  unfold u64. rewrite <- Z.add_assoc.
  rewrite Z.add_mod, Z.mul_mod_idemp_l, <- Z.add_mod by lia. reflexivity.
Qed.

Lemma hash_string_ok s rest : Forall (fun c => byte c /\ c <> 0) s ->
  hash_string (s ++ 0 :: rest) = Ok (u64 (poly (map s8 s))).
Proof.
  intros Hs. unfold hash_string.
  assert (L : forall todo done fuel, Forall (fun c => byte c /\ c <> 0) todo ->
     (length todo < fuel)%nat ->
     hash_string_loop fuel (done ++ todo ++ 0 :: rest) (zlen done) (u64 (poly (map s8 done))) =
     Ok (u64 (poly (map s8 (done ++ todo))))).
  { induction todo as [|c todo IH]; intros done fuel Ht Hf; (destruct fuel; [simpl in Hf; lia|]);
      cbn [hash_string_loop].
    - cbn [app]. rewrite rd_app by reflexivity. cbn. rewrite app_nil_r. reflexivity.
    - cbn [app]. rewrite rd_app by reflexivity. cbn [bind].
      inversion Ht as [|? ? [Hb H0] Ht']; subst.
      replace (truth c) with true by (unfold truth; lia).
      rewrite u64_step, <- poly_app.
      change [s8 c] with (map s8 [c]). rewrite <- map_app.
      specialize (IH (done ++ [c]) fuel Ht' ltac:(simpl in Hf; lia)).
      rewrite zlen_snoc in IH. rewrite <- !app_assoc in IH.
      exact IH. }
  specialize (L s [] (S (length (s ++ 0 :: rest))) Hs ltac:(rewrite app_length; simpl; lia)).
  exact L.
Qed.

Lemma hash_blob_ok s rest : bytes s ->
  hash_blob (s ++ rest) (zlen s) = Ok (u64 (poly s)).
Proof.
  intros Hs. unfold hash_blob.
  assert (L : forall todo done fuel, 
     (length todo < fuel)%nat ->
     hash_blob_loop fuel (done ++ todo ++ rest) (zlen done) (zlen todo) (u64 (poly done)) =
     Ok (u64 (poly (done ++ todo)))).
  { induction todo as [|c todo IH]; intros done fuel Hf; (destruct fuel; [simpl in Hf; lia|]);
      cbn [hash_blob_loop].
    - cbn. rewrite app_nil_r. reflexivity.
    - rewrite zlen_cons. pose proof (zlen_nonneg todo).
      replace (truth (1 + zlen todo)) with true by (unfold truth; lia).
      cbn [app]. rewrite rd_app by reflexivity. cbn [bind].
      rewrite u64_step, <- poly_app.
      specialize (IH (done ++ [c]) fuel ltac:(simpl in Hf; lia)).
      rewrite zlen_snoc in IH. rewrite <- !app_assoc in IH.
      replace (1 + zlen todo - 1) with (zlen todo) by lia. exact IH. }
  exact (L s [] (S (length (s ++ rest))) ltac:(rewrite app_length; lia)).
Qed.

Lemma hash_integer_value x : hash_integer (as_integer x) = x mod 2 ^ 64 /\ hash_unsigned (as_unsigned x) = x mod 2 ^ 64.
Proof.
  unfold hash_integer, as_intptr, as_integer, hash_unsigned, as_uintptr, as_unsigned, s64, sgn, u64. cbv zeta.
  change (64 - 1) with 63. rewrite !Z.mod_mod by lia. split; [|reflexivity].
  pose proof (Z.mod_pos_bound x (2 ^ 64) ltac:(lia)) as B. destruct (Z.ltb_spec (x mod 2 ^ 64) (2 ^ 63)).
  - apply Z.mod_mod. lia.
  - replace (x mod 2 ^ 64 - 2 ^ 64) with (x mod 2 ^ 64 + (-1) * 2 ^ 64) by ring. rewrite Z.mod_add, Z.mod_mod by lia. reflexivity.
Qed.
Lemma hash_integer_inj x y : - 2 ^ 63 <= x < 2 ^ 63 -> - 2 ^ 63 <= y < 2 ^ 63 ->
  hash_integer (as_integer x) = hash_integer (as_integer y) -> x = y.
Proof.
  intros Hx Hy. unfold hash_integer. rewrite !intptr_round by assumption. unfold u64. lia.
Qed.
Lemma hash_unsigned_inj x y : 0 <= x < 2 ^ 64 -> 0 <= y < 2 ^ 64 ->
  hash_unsigned (as_unsigned x) = hash_unsigned (as_unsigned y) -> x = y.
Proof. intros Hx Hy. unfold hash_unsigned. rewrite !uintptr_round by assumption. auto. Qed.

Lemma fscalloc_ok n size : 0 <= n -> 0 <= size -> n * size < 2 ^ 64 ->
  fscalloc n size = repeat 0 (Z.to_nat (n * size)).
Proof. intros Hn Hs H. unfold fscalloc. rewrite u64_small by nia. do 2 f_equal. lia. Qed.

Lemma fscalloc_refuted :
  exists n size, 0 <= n <= SIZE_MAX /\ 0 <= size <= SIZE_MAX /\
    zlen (fscalloc n size) < n /\ zlen (fscalloc n size) <> n * size.
Proof.
  exists (2 ^ 61 + 1), 8. unfold SIZE_MAX.
  assert (E : fscalloc (2 ^ 61 + 1) 8 = repeat 0 8) by (vm_compute; reflexivity).
  rewrite E. change (zlen (repeat 0 8)) with 8. lia.
Qed.

Lemma fscalloc_exact n size : 0 <= n <= SIZE_MAX -> 0 <= size <= SIZE_MAX ->
  zlen (fscalloc n size) = (n * size) mod 2 ^ 64 /\ Forall (fun b => b = 0) (fscalloc n size).
Proof.
  intros Hn Hs. unfold fscalloc. cbv zeta. unfold zlen, u64. rewrite repeat_length, Z2Nat.id.
  - split; [f_equal; lia|]. apply Forall_forall. intros b B. exact (repeat_spec _ _ _ B).
  - apply Z.mod_pos_bound. lia.
Qed.
