(** The generator stops at tables with gaps or overlaps (C91). *)
From Verif Require Import Base IdnaTabModel IdnaTabSpec IdnaTabProofs NormSpec.
From Coq Require Import ZifyBool ZifyNat.

Lemma fill_range_taken count : forall cp e t n, 0 <= cp -> cp + Z.of_nat count <= N_CP ->
  cp <= n < cp + Z.of_nat count -> t n <> None -> fill_range count cp e t = Abort.
Proof.
  induction count as [|count IH]; intros cp e t n L U R T; [lia|]. cbn [fill_range]. replace ((0 <=? cp) && (cp <? N_CP)) with true by lia.
  destruct (t cp) eqn:E; [reflexivity|]. cbn [assert bind]. apply (IH (cp + 1) e _ n); [lia|lia| |].
  - assert (n <> cp) by (intros ->; apply T, E). lia.
  - cbv beta. destruct (n =? cp); [discriminate|exact T].
Qed.
Lemma fill_range_free count cp (t : itable) : (exists n, cp <= n < cp + Z.of_nat count /\ t n <> None) \/ (forall n, cp <= n < cp + Z.of_nat count -> t n = None).
Proof.
  induction count as [|count [(n & R & T)|IH]]; [right; intros; lia|left; exists n; split; [lia|exact T]|].
  destruct (t (cp + Z.of_nat count)) eqn:E; [left; exists (cp + Z.of_nat count); split; [lia|congruence]|].
  right. intros n R. destruct (Z.eq_dec n (cp + Z.of_nat count)) as [->|N]; [exact E|apply IH; lia].
Qed.

(** Every row takes the places of its range; the table holds what the rows before took. *)
Lemma read_lines_checked junk rows : zlen junk = 100 -> Forall row_ok rows -> forall t,
  (exists n, 0 <= n < N_CP /\ (times rows n >= (match t n with None => 2 | Some _ => 1 end))%nat) /\ read_lines junk rows t = Abort \/
  (forall n, (times rows n <= (match t n with None => 1 | Some _ => 0 end))%nat) /\
  exists t', read_lines junk rows t = Ok t' /\ forall n, (t' n <> None <-> t n <> None \/ times rows n = 1%nat).
Proof.
  intros J F. induction F as [|[[[lo hi] st] m] rows R F IH]; intros t.
  - right. split; [intros n; cbn; lia|]. exists t. split; [reflexivity|]. intros n. cbn. intuition; discriminate.
  - cbn [row_ok] in R. destruct R as (R1 & R2 & M). cbn [read_lines]. rewrite (mapping_bytes_ok _ _ J M). cbn [bind].
    set (count := Z.to_nat (hi - lo + 1)). assert (RC : lo + Z.of_nat count = hi + 1) by (unfold count; lia).
    destruct (fill_range_free count lo t) as [(n & Rn & Tn)|Free].
    + left. split; [|rewrite (fill_range_taken count lo _ t n); [reflexivity|lia|unfold N_CP; lia|exact Rn|exact Tn]].
      exists n. split; [unfold N_CP; lia|]. unfold times. cbn [filter]. replace (covers n (lo, hi, st, m)) with true by (unfold covers; lia). cbn [length].
      destruct (t n); [lia|destruct (Tn eq_refl)].
    + destruct (fill_range_ok count lo (st, option_map encoding m) t) as (t1 & E1 & Q1); [lia|unfold N_CP; lia|exact Free|]. rewrite E1. cbn [bind].
      assert (K : forall n, (times ((lo, hi, st, m) :: rows) n = (if ((lo <=? n) && (n <=? hi))%Z then 1 else 0) + times rows n)%nat).
      { intros n. unfold times. cbn [filter]. change (covers n (lo, hi, st, m)) with ((lo <=? n) && (n <=? hi)). destruct ((lo <=? n) && (n <=? hi)); reflexivity. }
      destruct (IH t1) as [((n & Rn & Tn) & E)|(Once & t' & E & Q)].
      * left. split; [|exact E]. exists n. split; [exact Rn|]. rewrite K. rewrite Q1 in Tn.
        replace ((lo <=? n) && (n <? lo + Z.of_nat count)) with ((lo <=? n) && (n <=? hi)) in Tn by lia.
        destruct ((lo <=? n) && (n <=? hi)) eqn:C; [rewrite (Free n) by lia; lia|]. lia.
      * right. split.
        { intros n. rewrite K. specialize (Once n). rewrite Q1 in Once.
          replace ((lo <=? n) && (n <? lo + Z.of_nat count)) with ((lo <=? n) && (n <=? hi)) in Once by lia.
          destruct ((lo <=? n) && (n <=? hi)) eqn:C; [rewrite (Free n) by lia; lia|]. lia. }
        exists t'. split; [exact E|]. intros n. rewrite Q, K, Q1. specialize (Once n). rewrite Q1 in Once.
        replace ((lo <=? n) && (n <? lo + Z.of_nat count)) with ((lo <=? n) && (n <=? hi)) in * by lia.
        destruct ((lo <=? n) && (n <=? hi)) eqn:C; [|reflexivity]. rewrite (Free n) by lia.
        split; [intros _; right; lia|intros _; left; discriminate].
Qed.

Lemma check_all_missing count : forall cp t n, cp <= n < cp + Z.of_nat count -> t n = None -> check_all count cp t = Abort.
Proof.
  induction count as [|count IH]; intros cp t n R T; [lia|]. cbn [check_all]. destruct (t cp) eqn:E; [|reflexivity]. cbn [assert bind].
  apply (IH (cp + 1) t n); [|exact T]. assert (n <> cp) by congruence. lia.
Qed.
Lemma gen_stops junk rows cp : zlen junk = 100 -> Forall row_ok rows -> 0 <= cp <= 0x10FFFF -> times rows cp <> 1%nat -> gen_idna_table junk rows = Abort.
Proof.
  intros J F R N. unfold gen_idna_table. destruct (read_lines_checked junk rows J F (fun _ => None)) as [(_ & ->)|(Once & t & -> & Q)]; [reflexivity|].
  cbn [bind]. specialize (Once cp). specialize (Q cp). cbn beta iota in Once, Q.
  rewrite (check_all_missing _ 0 t cp); [reflexivity|unfold N_CP; lia|]. destruct (t cp); [|reflexivity]. exfalso. destruct Q as [Q _].
  destruct (Q ltac:(discriminate)) as [X|X]; [exact (X eq_refl)|exact (N X)].
Qed.
