(** C103: epoch_to_utc for every time_t. *)
From Verif Require Import Base DateModel DateSpec DateProofs DateEdge.
From Coq Require Import ZifyBool.

(** That every time_t is broken down without undefined behaviour is false: 1600-02-29 00:00:00 reads in front of a table, and
    there is an integer overflow in the year 5 881 210. *)
Theorem C103_refuted : epoch_to_utc (- 135081 * 86400) = UB /\ epoch_to_utc ((INT_MAX - 135079) * 86400) = UB.
Proof. split; vm_compute; reflexivity. Qed.
Print Assumptions C103_refuted.

(** Nor is the date always right when there is one: dates repeat after 2^32 days. *)
Theorem C103_refuted_wraps : forall e k, 0 <= e -> 0 <= e + k * (2 ^ 32 * 86400) ->
  epoch_to_utc (e + k * (2 ^ 32 * 86400)) = epoch_to_utc e.
Proof. exact wraps. Qed.
Print Assumptions C103_refuted_wraps.

(** Exactly when it is defined, for all integers: the number of days since 1600-03-01, with the days since 1970 reduced to an
    int, is an int, and it is not negative, or a whole number of 400 years, centuries, groups of four years, and years. *)
Theorem C103_defined_partial : forall epoch,
  let days := s32 (Z.quot epoch 86400) + 135080 in
  ((exists t, epoch_to_utc epoch = Ok t) <->
     days <= INT_MAX /\ (0 <= days \/ (((- days mod 146097) mod 36524) mod 1461) mod 365 = 0)) /\
  ((forall t, epoch_to_utc epoch <> Ok t) -> epoch_to_utc epoch = UB).
Proof.
  intros epoch. split; [exact (defined_exactly epoch)|]. intros N. destruct (else_undefined epoch) as [E|(t & E)]; [exact E|destruct (N t E)].
Qed.
Print Assumptions C103_defined_partial.

(** In particular it is defined from 1600-03-01 on for 5 879 610 years. *)
Theorem C103_range_partial : forall epoch, - 135080 * 86400 <= epoch -> epoch < (INT_MAX - 135079) * 86400 ->
  exists t, epoch_to_utc epoch = Ok t.
Proof.
  intros epoch L H. apply defined_exactly. unfold int_days. unfold INT_MAX in *.
  assert (B : - 135080 <= Z.quot epoch 86400 <= 2147483647 - 135080).
  { pose proof (Z.quot_rem' epoch 86400) as Q. destruct (Z.le_gt_cases 0 epoch) as [E|E].
    - pose proof (Z.rem_bound_pos epoch 86400 E ltac:(lia)). lia.
    - pose proof (rem_bound_neg epoch 86400 ltac:(lia) ltac:(lia)). lia. }
  rewrite s32_small by lia. lia.
Qed.
Print Assumptions C103_range_partial.

(** A second too early and a second too late; 1599-03-02, 365 days before 1600-03-01,
    comes out as 1599-03-01 and a moment in the year 11 761 221 as one in 2000. *)
Example C103_example :
  (exists t, epoch_to_utc (- 135080 * 86400 - 86399) = Ok t) /\ epoch_to_utc (- 135080 * 86400 - 86400) = UB /\
  (exists t, epoch_to_utc ((INT_MAX - 135079) * 86400 - 1) = Ok t) /\ epoch_to_utc ((INT_MAX - 135079) * 86400) = UB /\
  epoch_to_utc (- (135080 + 365) * 86400) = Ok (Tm 0 0 0 1 2 (1599 - 1900) (-5)) /\
  epoch_to_utc (2 ^ 32 * 86400 + 951782400) = Ok (Tm 0 0 0 29 1 100 2).
Proof. split; [eexists; vm_compute; reflexivity|]. split; [vm_compute; reflexivity|]. split; [eexists; vm_compute; reflexivity|]. split; [|split]; vm_compute; reflexivity. Qed.
