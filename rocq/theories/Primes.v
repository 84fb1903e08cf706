(** Prime numbers by trial division. *)
From Verif Require Import Base.
From Coq Require Import Znumtheory.

(** No number [6 i + 5] or [6 i + 7] with [lo <= i < lo + 2 ^ k] and a square up to [p] divides [p]. *)
Fixpoint no_factor (p : Z) (k : nat) (lo : Z) : bool :=
  if p <? (6 * lo + 5) * (6 * lo + 5) then true else
  match k with
  | O => negb (p mod (6 * lo + 5) =? 0) && negb (p mod (6 * lo + 7) =? 0)
  | S k => no_factor p k lo && no_factor p k (lo + 2 ^ Z.of_nat k)
  end.

Lemma no_factor_ok p k : forall lo, 0 <= lo -> no_factor p k lo = true ->
  forall i, lo <= i < lo + 2 ^ Z.of_nat k ->
  ((6 * i + 5) * (6 * i + 5) <= p -> p mod (6 * i + 5) <> 0) /\ ((6 * i + 7) * (6 * i + 7) <= p -> p mod (6 * i + 7) <> 0).
Proof.
  induction k as [|k IH]; intros lo L; cbn [no_factor];
    destruct (Z.ltb_spec p ((6 * lo + 5) * (6 * lo + 5))) as [B|B].
  - intros _ i Hi. split; intros X; exfalso; nia.
  - intros E i Hi. assert (i = lo) as -> by (change (2 ^ Z.of_nat 0) with 1 in Hi; lia).
    apply andb_true_iff in E. destruct E as [E1 E2]. rewrite negb_true_iff in E1, E2. apply Z.eqb_neq in E1, E2. auto.
  - intros _ i Hi. split; intros X; exfalso; nia.
  - intros E i Hi. apply andb_true_iff in E. destruct E as [E1 E2].
    rewrite Nat2Z.inj_succ, Z.pow_succ_r in Hi by lia. pose proof (Z.pow_nonneg 2 (Z.of_nat k) ltac:(lia)).
    destruct (Z.lt_ge_cases i (lo + 2 ^ Z.of_nat k)); [apply (IH lo)|apply (IH (lo + 2 ^ Z.of_nat k))]; auto; lia.
Qed.

Definition is_prime (k : nat) (p : Z) : bool :=
  (5 <=? p) && negb (p mod 2 =? 0) && negb (p mod 3 =? 0) && (p <? (6 * 2 ^ Z.of_nat k + 5) * (6 * 2 ^ Z.of_nat k + 5)) && no_factor p k 0.

Lemma is_prime_ok k p : is_prime k p = true -> prime p.
Proof.
  unfold is_prime. rewrite !andb_true_iff, !negb_true_iff. intros ((((P5 & P2) & P3) & PB) & PF).
  apply Z.leb_le in P5. apply Z.eqb_neq in P2, P3. apply Z.ltb_lt in PB.
  assert (S : forall d, 2 <= d -> d * d <= p -> p mod d <> 0).
  { intros d D DD Z0. pose proof (no_factor_ok p k 0 ltac:(lia) PF) as N.
    assert (Dv : (d | p)) by (apply Z.mod_divide; lia).
    assert (N2 : d mod 2 <> 0). { intros X. apply P2. apply Z.mod_divide; [lia|]. apply Z.divide_trans with d; [apply Z.mod_divide; lia|exact Dv]. }
    assert (N3 : d mod 3 <> 0). { intros X. apply P3. apply Z.mod_divide; [lia|]. apply Z.divide_trans with d; [apply Z.mod_divide; lia|exact Dv]. }
    assert (exists i, 0 <= i /\ (d = 6 * i + 5 \/ d = 6 * i + 7)) as (i & I0 & I).
    { assert (d mod 6 = 1 \/ d mod 6 = 5) as [X|X].
      { clear - N2 N3. lia. }
      - exists (d / 6 - 1). lia.
      - exists (d / 6). lia. }
    assert (IB : i < 2 ^ Z.of_nat k) by 
      (destruct (Z.lt_ge_cases i (2 ^ Z.of_nat k)) as [?|G]; [assumption|]; pose proof (Z.pow_nonneg 2 (Z.of_nat k) ltac:(lia));
       pose proof (Z.mul_le_mono_nonneg (6 * 2 ^ Z.of_nat k + 5) d (6 * 2 ^ Z.of_nat k + 5) d ltac:(lia) ltac:(lia) ltac:(lia) ltac:(lia)); lia).
    destruct (N i ltac:(lia)) as [N5 N7]. destruct I as [-> | ->]; [apply N5|apply N7]; assumption. }
  apply prime_alt. split; [lia|]. intros d D Dv.
  destruct Dv as (q & Q). destruct (Z.le_gt_cases (d * d) p) as [L|L].
  - apply (S d); [lia|exact L|]. subst p. apply Z.mod_mul. lia.
  - assert (q * q <= p /\ 2 <= q) as [L2 G2] by nia. apply (S q); [lia|exact L2|]. subst p. rewrite Z.mul_comm. apply Z.mod_mul. lia.
Qed.
