(** epoch_to_utc for every time_t. *)
From Verif Require Import Base DateModel DateSpec DateProofs.
From Coq Require Import ZifyBool.

(** [n] days are a whole number of 400 years, centuries, groups of four years and years. *)
Definition whole_years (n : Z) : Prop := (((n mod 146097) mod 36524) mod 1461) mod 365 = 0.

(** The day counted from 1600-03-01, as an int. *)
Definition int_days (epoch : Z) : Z := s32 (Z.quot epoch 86400) + 135080.

Lemma civil_late days : 0 <= days -> exists r, civil days = Ok r.
Proof.
  intros H. unfold civil.
  set (d1 := Z.rem days 146097). assert (B1 : 0 <= d1) by (subst d1; apply Z.rem_nonneg; lia).
  destruct (Z.quot d1 36524 =? 4); [eexists; reflexivity|].
  set (d2 := Z.rem d1 36524). assert (B2 : 0 <= d2) by (subst d2; apply Z.rem_nonneg; lia).
  set (d3 := Z.rem d2 1461). assert (B3 : 0 <= d3) by (subst d3; apply Z.rem_nonneg; lia).
  destruct (Z.quot d3 365 =? 4); [eexists; reflexivity|].
  assert (B4 : 0 <= Z.rem d3 365 < 365) by (apply Z.rem_bound_pos; lia).
  replace (inb YDAY_INFO (Z.rem d3 365)) with true.
  2: { symmetry. unfold inb. change (zlen YDAY_INFO) with 366. lia. }
  destruct (nth _ _ _) as [[? ?] ?]. eexists; reflexivity.
Qed.

Lemma civil_early n : 0 < n -> (exists r, civil (- n) = Ok r) <-> whole_years n.
Proof.
  intros H. unfold civil, whole_years.
  rewrite (Z.rem_opp_l n 146097) by lia. rewrite (Z.rem_mod_nonneg n 146097) by lia.
  set (d1 := n mod 146097). assert (B1 : 0 <= d1) by (subst d1; apply Z.mod_pos_bound; lia).
  assert (Q1 : Z.quot (- d1) 36524 <= 0). { rewrite Z.quot_opp_l by lia. pose proof (Z.quot_pos d1 36524 B1 ltac:(lia)). lia. }
  replace (Z.quot (- d1) 36524 =? 4) with false by lia.
  rewrite (Z.rem_opp_l d1 36524) by lia. rewrite (Z.rem_mod_nonneg d1 36524) by lia.
  set (d2 := d1 mod 36524). assert (B2 : 0 <= d2) by (subst d2; apply Z.mod_pos_bound; lia).
  rewrite (Z.rem_opp_l d2 1461) by lia. rewrite (Z.rem_mod_nonneg d2 1461) by lia.
  set (d3 := d2 mod 1461). assert (B3 : 0 <= d3) by (subst d3; apply Z.mod_pos_bound; lia).
  assert (Q3 : Z.quot (- d3) 365 <= 0). { rewrite Z.quot_opp_l by lia. pose proof (Z.quot_pos d3 365 B3 ltac:(lia)). lia. }
  replace (Z.quot (- d3) 365 =? 4) with false by lia.
  rewrite (Z.rem_opp_l d3 365) by lia. rewrite (Z.rem_mod_nonneg d3 365) by lia.
  assert (B4 : 0 <= d3 mod 365 < 365) by (apply Z.mod_pos_bound; lia).
  unfold inb. change (zlen YDAY_INFO) with 366.
  destruct ((0 <=? - (d3 mod 365)) && (- (d3 mod 365) <? 366)) eqn:E.
  - destruct (nth _ _ _) as [[? ?] ?]. split; [intros _; lia|intros _; eexists; reflexivity].
  - split; [intros (r & X); discriminate|lia].
Qed.

Theorem defined_exactly epoch : (exists t, epoch_to_utc epoch = Ok t) <->
  int_days epoch <= INT_MAX /\ (0 <= int_days epoch \/ whole_years (- int_days epoch)).
Proof.
  unfold epoch_to_utc, int_days. set (d := s32 (Z.quot epoch 86400) + 135080).
  destruct (d <=? INT_MAX) eqn:E.
  - destruct (Z.le_gt_cases 0 d) as [D|D].
    + destruct (civil_late d D) as ([[y m] md] & ->). cbn [bind]. split; [intros _; split; [lia|left; exact D]|intros _; eexists; reflexivity].
    + pose proof (civil_early (- d) ltac:(lia)) as C. rewrite Z.opp_involutive in C. split.
      * intros (t & T). split; [lia|]. right. apply C. destruct (civil d) as [r| | |]; try discriminate. eexists; reflexivity.
      * intros (_ & [X|X]); [lia|]. apply C in X. destruct X as ([[y m] md] & ->). eexists; reflexivity.
  - split; [intros (t & X); discriminate|lia].
Qed.
Lemma civil_total days : exists r, civil days = r /\ (r = UB \/ exists v, r = Ok v).
Proof.
  unfold civil. destruct (_ =? 4); [eexists; split; [reflexivity|right; eexists; reflexivity]|].
  destruct (_ =? 4); [eexists; split; [reflexivity|right; eexists; reflexivity]|].
  destruct (inb _ _); [destruct (nth _ _ _) as [[? ?] ?]; eexists; split; [reflexivity|right; eexists; reflexivity]|].
  eexists; split; [reflexivity|left; reflexivity].
Qed.
Theorem else_undefined epoch : epoch_to_utc epoch = UB \/ exists t, epoch_to_utc epoch = Ok t.
Proof.
  unfold epoch_to_utc. destruct (_ <=? INT_MAX); [|left; reflexivity].
  destruct (civil_total (s32 (Z.quot epoch 86400) + 135080)) as (r & -> & [->|([[y m] d] & ->)]); [left; reflexivity|right; eexists; reflexivity].
Qed.

Lemma s32_mod a b : (a - b) mod 2 ^ 32 = 0 -> s32 a = s32 b.
Proof.
  intros H. unfold s32, sgn. change (2 ^ 32) with 4294967296 in *. replace (a mod 4294967296) with (b mod 4294967296); [reflexivity|].
  replace a with (b + (a - b)) by lia. rewrite Z.add_mod by lia. rewrite H, Z.add_0_r, Z.mod_mod by lia. reflexivity.
Qed.
Theorem wraps e k : 0 <= e -> 0 <= e + k * (2 ^ 32 * 86400) -> epoch_to_utc (e + k * (2 ^ 32 * 86400)) = epoch_to_utc e.
Proof.
  intros H H'. unfold epoch_to_utc. replace (e + k * (2 ^ 32 * 86400)) with (e + (k * 2 ^ 32) * 86400) in * by lia.
  assert (R : Z.rem (e + k * 2 ^ 32 * 86400) 86400 = Z.rem e 86400).
  { rewrite !Z.rem_mod_nonneg by lia. apply Z.mod_add. lia. }
  assert (Q : s32 (Z.quot (e + k * 2 ^ 32 * 86400) 86400) = s32 (Z.quot e 86400)).
  { rewrite !Z.quot_div_nonneg by lia. rewrite Z.div_add by lia. apply s32_mod.
    replace (e / 86400 + k * 2 ^ 32 - e / 86400) with (k * 2 ^ 32) by lia. apply Z.mod_mul. lia. }
  rewrite R, Q. reflexivity.
Qed.
