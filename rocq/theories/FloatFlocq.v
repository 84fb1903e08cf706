(** The integer specification of binary64 agrees with Flocq's. *)
From Coq Require Import Reals Psatz.
From Flocq Require Import Core Binary Bits.
From Verif Require Import Base FloatSpec FloatProofs.
Open Scope Z_scope.

Lemma aux_value v : 0 <= v < 2 ^ 64 ->
  let x := binary_float_of_bits_aux 52 11 v in
  is_finite_FF x = negb (f_exp v =? 2047) /\
  (f_exp v <> 2047 ->
   FF2R radix2 x =
   F2R (Float radix2 (sg v * mant v) ((if f_exp v =? 0 then 1 else f_exp v) - 1075))).
Proof.
  intros Hv. pose proof (fields v Hv) as (Hs & He & Hf & Hdec).
  unfold binary_float_of_bits_aux, split_bits.
  change (2 ^ 11) with 2048. change (2 ^ (11 - 1)) with 1024.
  fold (f_frac v).
  replace (v / 2 ^ 52 mod 2048) with (f_exp v) by reflexivity.
  set (sx := Zle_bool (2 ^ 52 * 2048) v).
  assert (Hsx : sx = negb (f_sign v =? 0)).
  { unfold sx. pose proof (Zle_cases (2 ^ 52 * 2048) v) as Hc. destruct (Zle_bool (2 ^ 52 * 2048) v);
      destruct (f_sign v =? 0) eqn:E; try reflexivity; lia. }
  clearbody sx.
  assert (Hcs : forall m : positive, cond_Zopp sx (Z.pos m) = sg v * Z.pos m).
  { intros m. unfold sg. rewrite Hsx. destruct (f_sign v =? 0); unfold cond_Zopp; cbn [negb]; lia. }
  unfold mant. 
  assert (Heq : forall a b, Zeq_bool a b = (a =? b))
    by (intros a b; unfold Zeq_bool; rewrite Z.eqb_compare; destruct (a ?= b); reflexivity).
  rewrite !Heq. change (2048 - 1) with 2047.
  cbv zeta.
  destruct (f_exp v =? 0) eqn:E0.
  - replace (f_exp v =? 2047) with false by lia. destruct (f_frac v) as [|p|p] eqn:Ef; [| |lia].
    + split; [reflexivity|]. intros _. unfold FF2R. rewrite Z.mul_0_r. rewrite F2R_0. reflexivity.
    + split; [reflexivity|]. intros _. unfold FF2R. rewrite Hcs. reflexivity.
  - destruct (f_exp v =? 2047) eqn:E1.
    + split; [|intros; lia]. destruct (f_frac v) as [|p|p]; reflexivity.
    + destruct (f_frac v + 2 ^ 52) as [|p|p] eqn:Ep; try lia.
      split; [reflexivity|]. intros _. unfold FF2R. rewrite Hcs.
      replace (2 ^ 52 + f_frac v) with (Z.pos p) by lia. f_equal. f_equal. unfold SpecFloat.emin. lia.
Qed.

Lemma binary64_is_flocq v n : 0 <= v < 2 ^ 64 ->
  binary64_is v n <->
  is_finite 53 1024 (b64_of_bits v) = true /\ B2R 53 1024 (b64_of_bits v) = IZR n.
Proof.
  intros Hv. destruct (aux_value v Hv) as [Hfin Hval]. cbv zeta in *.
  unfold b64_of_bits, binary_float_of_bits.
  rewrite is_finite_FF2B, B2R_FF2B, Hfin.
  unfold binary64_is, f_finite. cbv zeta. fold (sg v). fold (mant v).
  pose proof (fields v Hv) as (_ & He & _ & _).
  set (e := if f_exp v =? 0 then 1 else f_exp v) in *.
  assert (1 <= e) by (unfold e; destruct (f_exp v =? 0) eqn:?; lia).
  assert (K : F2R (Float radix2 (sg v * mant v) (e - 1075)) = IZR n <->
              n * 2 ^ 1074 = sg v * mant v * 2 ^ (e - 1)).
  { unfold F2R. cbn [Fnum Fexp].
    replace (e - 1075) with ((e - 1) + - (1074)) by lia. rewrite bpow_plus.
    rewrite bpow_opp. rewrite <- !(IZR_Zpower radix2) by lia. cbn [radix_val radix2].
    assert (P : IZR (2 ^ 1074) <> 0%R).
    { apply IZR_neq. apply Z.pow_nonzero; lia. }
    split; intros E.
    - apply eq_IZR. rewrite !mult_IZR. rewrite <- E, !mult_IZR. field. exact P.
    - assert (E' : IZR (n * 2 ^ 1074) = IZR (sg v * mant v * 2 ^ (e - 1))) by (rewrite E; reflexivity).
      rewrite !mult_IZR in E'. rewrite !mult_IZR.
      apply (Rmult_eq_reg_r (IZR (2 ^ 1074))); [|exact P].
      rewrite E'. field. exact P. }
  split.
  - intros [Hne E]. split; [lia|]. rewrite Hval by assumption. apply K. exact E.
  - intros [Hne E]. assert (f_exp v <> 2047) by lia. split; [assumption|].
    rewrite Hval in E by assumption. apply K. exact E.
Qed.
