(** Property C138: the order of epochs is that of dates. *)
From Verif Require Import Base DateModel DateSpec DateOrderSpec DateOrder.

(** From 1600-03-01 to the last day whose number fits an int, one epoch is before another exactly if its fields are: the year, then
    the month, day, hour, minute and second. Before 1970, too, where hours, minutes and seconds count backwards from the date. *)
Theorem C138_order : forall n m a b,
  - 135080 * 86400 <= n < (INT_MAX - 135080 + 1) * 86400 -> - 135080 * 86400 <= m < (INT_MAX - 135080 + 1) * 86400 ->
  epoch_to_utc n = Ok a -> epoch_to_utc m = Ok b -> (n < m <-> earlier a b).
Proof. intros n m a b Hn Hm. exact (epoch_order n m a b (epoch_range n Hn) (epoch_range m Hm)). Qed.
Print Assumptions C138_order.

(** There is a result for each, and no two epochs have the same. *)
Theorem C138_total : forall n, - 135080 * 86400 <= n < (INT_MAX - 135080 + 1) * 86400 -> exists t, epoch_to_utc n = Ok t.
Proof. intros n H. destruct (epoch_fields n (epoch_range n H)) as (w & E). eauto. Qed.
Print Assumptions C138_total.
Theorem C138_different : forall n m t,
  - 135080 * 86400 <= n < (INT_MAX - 135080 + 1) * 86400 -> - 135080 * 86400 <= m < (INT_MAX - 135080 + 1) * 86400 ->
  epoch_to_utc n = Ok t -> epoch_to_utc m = Ok t -> n = m.
Proof.
  intros n m t Hn Hm En Em. destruct (Z.lt_trichotomy n m) as [L|[L|L]]; [|exact L|]; exfalso.
  - apply (C138_order n m t t Hn Hm En Em) in L. unfold earlier in L. lia.
  - apply (C138_order m n t t Hm Hn Em En) in L. unfold earlier in L. lia.
Qed.
Print Assumptions C138_different.

(** The second before 1970 is 1970-01-01 00:00:-1, which is before 1970-01-01 00:00:00 and after 1969-12-31 00:00:00. The
    upper bound is needed: 2^32 days later, the dates repeat. *)
Example C138_example :
  epoch_to_utc (-86400) = Ok (Tm 0 0 0 31 11 69 3) /\ epoch_to_utc (-1) = Ok (Tm (-1) 0 0 1 0 70 4) /\ epoch_to_utc 0 = Ok (Tm 0 0 0 1 0 70 4) /\
  earlier (Tm 0 0 0 31 11 69 3) (Tm (-1) 0 0 1 0 70 4) /\ earlier (Tm (-1) 0 0 1 0 70 4) (Tm 0 0 0 1 0 70 4) /\
  epoch_to_utc (2 ^ 32 * 86400) = Ok (Tm 0 0 0 1 0 70 4).
Proof. do 3 (split; [vm_compute; reflexivity|]). split; [unfold earlier; cbn; lia|]. split; [unfold earlier; cbn; lia|]. vm_compute. reflexivity. Qed.
