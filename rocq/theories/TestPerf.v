(** Proofs about the program test/priorq_perf.c. *)
From Verif Require Import Base CMem Heap ObjModel ObjBase AvlModel AvlSpec KeySpec TreeKeyModel TreeKeySpec TreeKeyProofs QueueKeyModel QueueKeySpec QueueKeyProofs TestPerfModel TestPerfSpec.
Open Scope list_scope.
Open Scope Z_scope.
Notation heap := Heap.heap.

(** * The callbacks *)
Section Perf.
Context (K : nat).
Definition key_in (b : list Z) : option (list Z) := if (length b =? S K)%nat then Some (firstn K b) else None.
Definition loc_in (b : list Z) : Z := nth K b 0.
Fixpoint order_of (x y : list Z) : Z :=
  match x, y with
  | a :: x, b :: y => if a =? b then order_of x y else a - b
  | _, _ => 0
  end.
Notation item := (item key_in loc_in).
Notation key_at := (key_at key_in).

Lemma key_in_of b x : key_in b = Some x -> length x = K /\ b = x ++ [loc_in b].
Proof.
  unfold key_in, loc_in. destruct (Nat.eqb_spec (length b) (S K)) as [L|]; [|discriminate]. intros E0. injection E0 as <-. split.
  - rewrite firstn_length. lia.
  - rewrite <- (firstn_skipn K b) at 1. f_equal. assert (L1 : length (skipn K b) = 1%nat) by (rewrite skipn_length; lia).
    destruct (skipn K b) as [|v [|w r]] eqn:Sk; try discriminate. rewrite <- (firstn_skipn K b) at 1. rewrite Sk.
    rewrite app_nth2 by (rewrite firstn_length; lia). rewrite firstn_length. replace (K - Nat.min K (length b))%nat with 0%nat by lia. reflexivity.
Qed.
Lemma of_key_in x loc : length x = K -> key_in (x ++ [loc]) = Some x /\ loc_in (x ++ [loc]) = loc.
Proof.
  intros L. unfold key_in, loc_in. rewrite app_length, L. cbn [length]. replace (K + 1 =? S K)%nat with true by (symmetry; apply Nat.eqb_eq; lia).
  rewrite firstn_app, L, Nat.sub_diag, firstn_all2 by lia. cbn [firstn]. rewrite app_nil_r. split; [reflexivity|]. rewrite app_nth2 by lia. rewrite L, Nat.sub_diag. reflexivity.
Qed.
Lemma key_of_at h a x : key_of K h a x <-> key_at h a x.
Proof.
  split.
  - intros (L & loc & G). exists (x ++ [loc]). split; [exact G|]. apply of_key_in. exact L.
  - intros (b & G & R). destruct (key_in_of b x R) as [L E0]. split; [exact L|]. exists (loc_in b). rewrite <- E0. exact G.
Qed.

Lemma order_flip x : forall y, length x = length y -> (order_of x y < 0 <-> order_of y x > 0).
Proof.
  induction x as [|a x IH]; intros [|b y] L; try discriminate; [cbn; lia|]. cbn [order_of]. injection L as L.
  destruct (Z.eqb_spec a b), (Z.eqb_spec b a); try lia. apply IH. exact L.
Qed.
Lemma order_trans x : forall y z, length x = length y -> length y = length z -> order_of x y <= 0 -> order_of y z <= 0 -> order_of x z <= 0.
Proof.
  induction x as [|a x IH]; intros [|b y] [|c z] L1 L2; try discriminate. cbn [order_of]. injection L1 as L1. injection L2 as L2.
  destruct (Z.eqb_spec a b), (Z.eqb_spec b c), (Z.eqb_spec a c); try lia. apply IH; assumption.
Qed.
Lemma order_eq x : forall y, length x = length y -> order_of x y = 0 -> x = y.
Proof.
  induction x as [|a x IH]; intros [|b y] L; try discriminate; [reflexivity|]. cbn [order_of]. injection L as L.
  destruct (Z.eqb_spec a b) as [->|]; [|lia]. intros E0. f_equal. apply IH; assumption.
Qed.
Lemma memcmp_order x : forall y r s, length x = length y -> memcmp (length x) (x ++ r) (y ++ s) = Ok (order_of x y).
Proof.
  induction x as [|a x IH]; intros [|b y] r s L; try discriminate; [reflexivity|]. cbn [length memcmp app order_of]. injection L as L.
  destruct (a =? b); [apply IH; exact L|reflexivity].
Qed.
Lemma readable_length x : readable key_in x -> length x = K.
Proof. intros (b & R). exact (proj1 (key_in_of b x R)). Qed.

Lemma perf_compares : comparing key_in (perf_cmp K) CMP 0 order_of.
Proof.
  constructor.
  - intros x y Rx Ry. apply order_flip. rewrite (readable_length _ Rx), (readable_length _ Ry). reflexivity.
  - intros x y z Rx Ry Rz. apply order_trans; rewrite ?(readable_length _ Rx), ?(readable_length _ Ry), ?(readable_length _ Rz); reflexivity.
  - intros h k x l y (b & Gb & Rb) (c & Gc & Rc). unfold perf_cmp, ld_slots, bnd, lift. rewrite Gb, Gc.
    destruct (key_in_of b x Rb) as [Lx Eb]. destruct (key_in_of c y Rc) as [Ly Ec].
    assert (M : memcmp K b c = Ok (order_of x y)) by (rewrite Eb, Ec, <- Lx; apply memcmp_order; congruence). rewrite M. reflexivity.
Qed.
Lemma perf_serving : serving key_in loc_in (perf_cmp K) (perf_reloc K) CMP RELOC 0 order_of.
Proof.
  constructor; [exact perf_compares|unfold RELOC, dummy; lia|].
  intros h a x loc (b & Gb & Rb). destruct (key_in_of b x Rb) as [Lx Eb]. pose proof (get_nonnull _ _ _ Gb) as Na.
  exists (put_cell h a (CSlots (x ++ [loc]))). split; [|split].
  - unfold perf_reloc. apply (set_field_ok a (Z.of_nat K) b (x ++ [loc]) loc h Gb). unfold wr.
    replace (inb b (Z.of_nat K)) with true by (unfold inb; rewrite Eb; unfold zlen; rewrite app_length; cbn [length]; lia).
    rewrite Nat2Z.id. unfold upd. f_equal. rewrite Eb, <- Lx. rewrite firstn_app, firstn_all, Nat.sub_diag. cbn [firstn]. rewrite app_nil_r.
    rewrite skipn_all2 by (rewrite app_length; cbn; lia). reflexivity.
  - exists (x ++ [loc]). rewrite get_put, Z.eqb_refl by exact Na. destruct (of_key_in x loc Lx). auto.
  - intros y Y. rewrite get_put by exact Na. destruct (Z.eqb_spec y a); [contradiction|reflexivity].
Qed.
Lemma field_loc h a x loc : item h a x loc -> field a (Z.of_nat K) h = Ok (loc, h).
Proof.
  intros (b & Gb & Rb & Lb). destruct (key_in_of b x Rb) as [Lx Eb]. apply (field_ok a (Z.of_nat K) b loc h Gb). unfold rd.
  replace (inb b (Z.of_nat K)) with true by (unfold inb; rewrite Eb; unfold zlen; rewrite app_length; cbn [length]; lia). rewrite Nat2Z.id. f_equal. exact Lb.
Qed.

(** * The tree *)
Notation sorted_tree := (sorted_tree key_in (perf_cmp K) CMP 0 order_of).
Section Tree.
Context (h0 : heap).
Record grown (t : Z) (m : list (entry (X := list Z))) (h : heap) : Prop := {
  gr_tree : sorted_tree h t m;
  gr_new : forall y, In y (foot t m) -> get h0 y = None;
  gr_old : forall y, ~ In y (foot t m) -> get h y = get h0 y
}.
Lemma grown_key t m h a x : grown t m h -> key_at h0 a x -> key_at h a x.
Proof. intros G (b & Gb & Rb). exists b. split; [|exact Rb]. rewrite (gr_old _ _ _ G); [exact Gb|]. intros I. pose proof (gr_new _ _ _ G _ I). congruence. Qed.
Lemma put_all_ok t es : forall m h, grown t m h -> NoDup (map fst es) -> (forall a x, In (a, x) es -> key_at h0 a x) ->
  (forall a x b y, In (a, x) es -> In (b, y) es -> order_of x y = 0 -> a = b) ->
  (forall a x e, In (a, x) es -> In e m -> order_of x (content e) <> 0) -> zlen m + zlen es < 2 ^ 60 ->
  exists m' h', put_all K t (map fst es) h = Ok (tt, h') /\ grown t m' h' /\ length m' = (length m + length es)%nat.
Proof.
  induction es as [|[a x] es IH]; intros m h G ND Ks Df Dm Sz.
  - exists m, h. cbn. split; [reflexivity|]. split; [exact G|lia].
  - cbn [map fst put_all]. rewrite zlen_cons in Sz. pose proof (zlen_nonneg es) as Z1.
    assert (Ka0 : key_at h0 a x) by (apply Ks; left; reflexivity).
    pose proof (grown_key _ _ _ _ _ G Ka0) as Ka.
    destruct (place_of key_in (perf_cmp K) CMP 0 order_of perf_compares h t m x (gr_tree _ _ _ G)) as [(m1 & m2 & Em & Be & Ab)|(m1 & e & m2 & Em & C0)].
    { destruct Ka as (b & _ & R). exists b. exact R. }
    2:{ exfalso. apply (Dm a x e); [left; reflexivity|rewrite Em; apply in_app_iff; right; left; reflexivity|exact C0]. }
    destruct (put_new_sorted key_in (perf_cmp K) CMP 0 order_of perf_compares h t m m1 m2 a x a (gr_tree _ _ _ G) Ka Em Be Ab) as (e & h1 & E1 & T1 & (F1 & F2)); [unfold few; lia|].
    rewrite (bnd_Ok _ _ _ _ _ E1). set (m' := m1 ++ (e, a, x, a) :: m2) in *.
    assert (Inm : forall y, In y (foot t m) -> In y (foot t m')).
    { unfold foot, m'. rewrite Em, !map_app. cbn [map]. intros y [<-|I]; [left; reflexivity|right]. apply in_app_iff in I. apply in_app_iff. destruct I; [left|right; right]; assumption. }
    assert (G1 : grown t m' h1).
    { constructor; [exact T1| |].
      - intros y I. destruct (in_dec Z.eq_dec y (foot t m)) as [J|J]; [exact (gr_new _ _ _ G y J)|]. rewrite <- (gr_old _ _ _ G y J).
        destruct (get h y) eqn:Gy; [|reflexivity]. destruct (F1 y J) as [_ N]; [congruence|contradiction].
      - intros y N. assert (J : ~ In y (foot t m)) by (intros J; apply N, Inm, J). rewrite (F2 y J N). exact (gr_old _ _ _ G y J). }
    inversion ND as [|? ? Na ND']; subst. destruct (IH m' h1 G1 ND') as (m2' & h2 & E2 & G2 & L2).
    + intros b y I. apply Ks. right. exact I.
    + intros b y c z I J. apply Df; right; assumption.
    + intros b y c I J C0. unfold m' in J. apply in_app_iff in J. destruct J as [J|[<-|J]].
      * apply (Dm b y c); [right; exact I|apply in_app_iff; left; exact J|exact C0].
      * apply Na. cbn [content fst snd] in C0. rewrite (Df a x b y); [exact (in_map fst _ _ I)|left; reflexivity|right; exact I|].
        change (order_of y x = 0) in C0. destruct (Ks b y ltac:(right; exact I)) as (bb & _ & Rb). destruct Ka as (ba & _ & Ra).
        pose proof (proj1 (key_in_of _ _ Rb)). pose proof (proj1 (key_in_of _ _ Ra)). rewrite (order_eq y x) by (congruence || exact C0). rewrite (order_eq y x) in C0 by (congruence || exact C0). exact C0.
      * apply (Dm b y c); [right; exact I|apply in_app_iff; right; exact J|exact C0].
    + unfold m'. unfold zlen in *. rewrite app_length in *. cbn [length]. lia.
    + exists m2', h2. split; [exact E2|]. split; [exact G2|]. rewrite L2. unfold m'. rewrite !app_length. cbn [length]. lia.
Qed.
End Tree.

Lemma measure_avl_ok h es : NoDup (map fst es) -> (forall a x, In (a, x) es -> key_at h a x) ->
  (forall a x b y, In (a, x) es -> In (b, y) es -> order_of x y = 0 -> a = b) -> zlen es < 2 ^ 60 ->
  exists h', measure_avl K (map fst es) h = Ok (tt, h') /\ forall y, get h' y = get h y.
Proof.
  intros ND Ks Df Sz. unfold measure_avl, enter_avl_data.
  destruct (make_sorted key_in (perf_cmp K) CMP 0 order_of perf_compares h) as (t & h1 & E1 & T1 & N1 & F1).
  rewrite !bnd_assoc, (bnd_Ok _ _ _ _ _ E1).
  destruct (put_all_ok h t es [] h1) as (m & h2 & E2 & G2 & L2); [|exact ND|exact Ks|exact Df|intros a x e _ []|cbn; lia|].
  { constructor; [exact T1| |].
    - intros y [<-|[]]. exact N1.
    - intros y N. apply F1. intros ->. apply N. left. reflexivity. }
  rewrite bnd_assoc, (bnd_Ok _ _ _ _ _ E2). rewrite step_ret.
  assert (TF : traverse_forward t (length (map fst es)) h2 = Ok (map elem m, h2)).
  { apply (look_sorted key_in (perf_cmp K) CMP 0 order_of perf_compares h2 t m _ (gr_tree _ _ _ _ G2)). rewrite L2, map_length. cbn. lia. }
  rewrite (bnd_Ok _ _ _ _ _ TF). destruct (destroy_sorted key_in (perf_cmp K) CMP 0 order_of perf_compares h2 t m (gr_tree _ _ _ _ G2)) as (h3 & E3 & D1 & D2).
  exists h3. split; [exact E3|]. intros y. destruct (in_dec Z.eq_dec y (foot t m)) as [J|J].
  - rewrite (D1 y J). symmetry. exact (gr_new _ _ _ _ G2 y J).
  - rewrite (D2 y J). exact (gr_old _ _ _ _ G2 y J).
Qed.

(** * The queue *)
Notation queued := (queued key_in loc_in (perf_cmp K) (perf_reloc K) CMP RELOC 0).
Notation same_beside := (same_beside key_in).
Lemma own_dec h q y : own h q y \/ ~ own h q y.
Proof.
  unfold own. destruct (Z.eq_dec y q); [auto|]. destruct (Z.eq_dec y 0); [right; intros [?|(? & _)]; contradiction|].
  destruct (get h q) as [c|] eqn:G; [|right; intros [?|(_ & ? & ? & ? & ? & ? & ?)]; [contradiction|discriminate]].
  destruct c as [| | |b| | |]; try (right; intros [?|(_ & ? & ? & ? & ? & ? & ?)]; [contradiction|discriminate]).
  destruct b as [|c [|r [|o [|s [|k [|mx [|z b]]]]]]]; try (right; intros [?|(_ & ? & ? & ? & ? & ? & ?)]; [contradiction|discriminate]).
  destruct (Z.eq_dec s y) as [->|Ns]; [left; right; split; [assumption|]; exists c, r, o, k, mx; reflexivity|].
  right. intros [?|(_ & ? & ? & ? & ? & ? & E0)]; [contradiction|]. injection E0 as _ _ _ E0 _ _. contradiction.
Qed.

Section Queue.
Context (h0 : heap) (es : list (Z * list Z)) (ND : NoDup (map fst es)) (Ks : forall a x, In (a, x) es -> key_at h0 a x).
Record going (q : Z) (h : heap) : Prop := {
  go_new : forall y, own h q y -> get h0 y = None;
  go_old : forall y, ~ own h q y -> ~ In y (map fst es) -> get h y = get h0 y;
  go_keys : forall a x, In (a, x) es -> key_at h a x
}.
Lemma same_key (a : Z) (x y : list Z) : In (a, x) es -> In (a, y) es -> x = y.
Proof.
  clear Ks. revert ND. induction es as [|[b z] l IH]; intros N I J; [destruct I|]. cbn [map fst] in N. inversion N as [|? ? Nb N']; subst.
  destruct I as [I|I], J as [J|J].
  - congruence.
  - injection I as -> ->. exfalso. apply Nb. exact (in_map fst _ _ J).
  - injection J as -> ->. exfalso. apply Nb. exact (in_map fst _ _ I).
  - apply IH; assumption.
Qed.
Lemma keys_allocated h a x : key_at h a x -> get h a <> None.
Proof. intros (b & G & _). congruence. Qed.
Lemma not_own q h a x : going q h -> In (a, x) es -> ~ own h q a.
Proof. intros G I O. apply (keys_allocated h0 a x (Ks a x I)). exact (go_new _ _ G a O). Qed.
Lemma go_on q m h h' : going q h -> same_beside q m h h' -> (forall a, In a m -> In a es) -> going q h'.
Proof.
  intros G (B1 & B2 & B3 & B4) I.
  assert (N' : forall y, own h' q y -> get h0 y = None).
  { intros y O'. destruct (own_dec h q y) as [O|O]; [exact (go_new _ _ G y O)|]. destruct (get h y) eqn:Gy.
    - exfalso. apply (B2 y O); [congruence|exact O'].
    - rewrite <- (go_old _ _ G y O); [exact Gy|]. intros J. apply in_map_iff in J. destruct J as ([b x] & E0 & J). cbn in E0. subst b.
      apply (keys_allocated h y x (go_keys _ _ G y x J)). exact Gy. }
  constructor; [exact N'| |].
  - intros y O' J. destruct (own_dec h q y) as [O|O].
    + rewrite (B3 y O O'). symmetry. exact (go_new _ _ G y O).
    + rewrite (B1 y O O'); [exact (go_old _ _ G y O J)|]. intros Jm. apply J. apply in_map_iff in Jm. destruct Jm as (b & <- & Jm). apply in_map. apply I. exact Jm.
  - intros a x J. destruct (in_dec Z.eq_dec a (map fst m)) as [Jm|Jm].
    + apply in_map_iff in Jm. destruct Jm as ([b y] & E0 & Jm). cbn in E0. subst b. rewrite (same_key a x y J (I _ Jm)). exact (B4 a y Jm).
    + destruct (go_keys _ _ G a x J) as (b & Gb & Rb). exists b. split; [|exact Rb]. rewrite B1; [exact Gb|exact (not_own _ _ _ _ G J)| |exact Jm].
      intros O'. apply (keys_allocated h0 a x (Ks a x J)). exact (N' a O').
Qed.

Context (junk : nat -> Z) (Sz : zlen es < 2 ^ 60).
Lemma enqueue_all_ok q l : forall m h, queued h q m -> going q h -> Permutation es (l ++ m) ->
  exists m' h', enqueue_all K junk q (map fst l) h = Ok (tt, h') /\ queued h' q m' /\ going q h' /\ Permutation es m'.
Proof.
  induction l as [|[a x] l IH]; intros m h Q G Pm.
  - exists m, h. split; [reflexivity|]. auto.
  - cbn [map fst enqueue_all].
    assert (Ia : In (a, x) es) by (apply (Permutation_in _ (Permutation_sym Pm)); left; reflexivity).
    assert (Im : forall b, In b m -> In b es) by (intros b Ib; apply (Permutation_in _ (Permutation_sym Pm)); right; apply in_app_iff; right; exact Ib).
    assert (Na : ~ In a (map fst m)).
    { pose proof (Permutation_NoDup (Permutation_map fst Pm) ND) as N. cbn [map fst app] in N. inversion N as [|? ? N1 _]; subst. intros J. apply N1.
      rewrite map_app. apply in_app_iff. right. exact J. }
    assert (Hs : space m).
    { unfold space. pose proof (Permutation_length Pm) as L. cbn [app length] in L. rewrite app_length in L. unfold zlen in *. lia. }
    destruct (enqueue_queued key_in loc_in (perf_cmp K) (perf_reloc K) CMP RELOC 0 order_of perf_serving junk h q m a x Q (go_keys _ _ G a x Ia) (not_own _ _ _ _ G Ia) Na Hs) as (h1 & E1 & Q1 & B1).
    rewrite (bnd_Ok _ _ _ _ _ E1). apply (IH ((a, x) :: m) h1 Q1).
    + apply (go_on q _ h h1 G B1). intros b [<-|Ib]; [exact Ia|exact (Im b Ib)].
    + rewrite Pm. cbn [app]. apply Permutation_middle.
Qed.
Lemma enter_pr_ok : exists q m h, enter_pr_data K junk (map fst es) h0 = Ok (q, h) /\ queued h q m /\ going q h /\ Permutation es m.
Proof.
  unfold enter_pr_data. destruct (make_queued key_in loc_in (perf_cmp K) (perf_reloc K) CMP RELOC 0 order_of perf_serving junk h0) as (q & h1 & E1 & Q1 & F1 & F2).
  rewrite (bnd_Ok _ _ _ _ _ E1).
  assert (G1 : going q h1).
  { constructor.
    - intros y O. destruct (get h0 y) eqn:Gy; [|reflexivity]. exfalso. apply (F1 y); [congruence|exact O].
    - intros y O _. exact (F2 y O).
    - intros a x I. destruct (Ks a x I) as (b & Gb & Rb). exists b. split; [|exact Rb]. rewrite F2; [exact Gb|]. apply F1. congruence. }
  destruct (enqueue_all_ok q es [] h1 Q1 G1) as (m & h2 & E2 & Q2 & G2 & P2); [rewrite app_nil_r; reflexivity|].
  rewrite (bnd_Ok _ _ _ _ _ E2). exists q, m, h2. auto.
Qed.
Lemma dequeue_loop_ok n : forall q m h, queued h q m -> going q h -> (forall a, In a m -> In a es) -> (length m < n)%nat ->
  exists h', dequeue_loop K n q h = Ok (tt, h') /\ queued h' q [] /\ going q h'.
Proof.
  induction n as [|n IH]; intros q m h Q G I L; [lia|]. cbn [dequeue_loop].
  pose proof (proj1 (proj2 (look_queued key_in loc_in (perf_cmp K) (perf_reloc K) CMP RELOC 0 order_of perf_serving h q m Q))) as E0. rewrite (bnd_Ok _ _ _ _ _ E0).
  destruct m as [|c m]; [exists h; auto|].
  destruct (dequeue_queued key_in loc_in (perf_cmp K) (perf_reloc K) CMP RELOC 0 order_of perf_serving h q (c :: m) Q) as (a & x & m1 & h1 & _ & E1 & P1 & _ & Q1 & B1); [discriminate|].
  rewrite (bnd_Ok _ _ _ _ _ E1). apply (IH q m1 h1 Q1).
  - exact (go_on q _ h h1 G B1 I).
  - intros b Ib. apply I. apply (Permutation_in _ (Permutation_sym P1)). right. exact Ib.
  - pose proof (Permutation_length P1) as L1. cbn [length] in *. lia.
Qed.
Lemma remove_loop_ok q l : forall m h, queued h q m -> going q h -> (forall a, In a m -> In a es) -> Permutation m l ->
  exists h', remove_loop K q (map fst l) h = Ok (tt, h') /\ queued h' q [] /\ going q h'.
Proof.
  induction l as [|[a x] l IH]; intros m h Q G I Pm.
  - exists h. symmetry in Pm. apply Permutation_nil in Pm. subst. split; [reflexivity|]. auto.
  - cbn [map fst remove_loop].
    destruct (remove_queued key_in loc_in (perf_cmp K) (perf_reloc K) CMP RELOC 0 order_of perf_serving h q m a x l Q Pm) as (loc & h1 & It & E1 & Q1 & B1).
    rewrite (bnd_Ok _ _ _ _ _ (field_loc h a x loc It)), (bnd_Ok _ _ _ _ _ E1). apply (IH l h1 Q1).
    + exact (go_on q _ h h1 G B1 I).
    + intros b Ib. apply I. apply (Permutation_in _ (Permutation_sym Pm)). right. exact Ib.
    + reflexivity.
Qed.
Lemma destroy_going q m h : queued h q m -> going q h ->
  exists h', m_destroy_priority_queue q h = Ok (tt, h') /\ (forall y, ~ In y (map fst es) -> get h' y = get h0 y) /\ (forall a x, In (a, x) es -> key_at h' a x).
Proof.
  intros Q G. destruct (destroy_queued key_in loc_in (perf_cmp K) (perf_reloc K) CMP RELOC 0 order_of perf_serving h q m Q) as (h' & E0 & D1 & D2).
  exists h'. split; [exact E0|]. split.
  - intros y N. destruct (own_dec h q y) as [O|O]; [rewrite (D1 y O); symmetry; exact (go_new _ _ G y O)|]. rewrite (D2 y O). exact (go_old _ _ G y O N).
  - intros a x I. destruct (go_keys _ _ G a x I) as (b & Gb & Rb). exists b. split; [|exact Rb]. rewrite D2; [exact Gb|exact (not_own _ _ _ _ G I)].
Qed.
Lemma measure_dequeue_ok : exists h', measure_dequeue K junk (map fst es) h0 = Ok (tt, h') /\
  (forall y, ~ In y (map fst es) -> get h' y = get h0 y) /\ (forall a x, In (a, x) es -> key_at h' a x).
Proof.
  unfold measure_dequeue. destruct enter_pr_ok as (q & m & h1 & E1 & Q1 & G1 & P1). rewrite (bnd_Ok _ _ _ _ _ E1).
  destruct (dequeue_loop_ok (S (length (map fst es))) q m h1 Q1 G1) as (h2 & E2 & Q2 & G2).
  - intros a I. exact (Permutation_in _ (Permutation_sym P1) I).
  - rewrite map_length, (Permutation_length P1). lia.
  - rewrite (bnd_Ok _ _ _ _ _ E2). exact (destroy_going q [] h2 Q2 G2).
Qed.
Lemma measure_remove_ok : exists h', measure_remove K junk (map fst es) h0 = Ok (tt, h') /\
  (forall y, ~ In y (map fst es) -> get h' y = get h0 y) /\ (forall a x, In (a, x) es -> key_at h' a x).
Proof.
  unfold measure_remove. destruct enter_pr_ok as (q & m & h1 & E1 & Q1 & G1 & P1). rewrite (bnd_Ok _ _ _ _ _ E1).
  destruct (remove_loop_ok q es m h1 Q1 G1) as (h2 & E2 & Q2 & G2).
  - intros a I. exact (Permutation_in _ (Permutation_sym P1) I).
  - symmetry. exact P1.
  - rewrite (bnd_Ok _ _ _ _ _ E2). exact (destroy_going q [] h2 Q2 G2).
Qed.
End Queue.

(** * The program *)
Lemma prepared_pairs h elements : prepared K h elements -> exists es, map fst es = elements /\ forall a x, In (a, x) es -> key_at h a x.
Proof.
  intros [_ Pk]. induction elements as [|a l IH]; [exists []; split; [reflexivity|intros a x []]|].
  destruct IH as (es & <- & Ks); [intros b Ib; apply Pk; right; exact Ib|]. destruct (Pk a (or_introl eq_refl)) as (x & Kx).
  exists ((a, x) :: es). split; [reflexivity|]. intros b y [E0|I]; [injection E0 as <- <-; apply key_of_at; exact Kx|exact (Ks b y I)].
Qed.
Lemma at_unique h a x y : key_at h a x -> key_at h a y -> x = y.
Proof. intros (b & G & R) (c & G' & R'). congruence. Qed.
Lemma pairs_before h h' es elements : map fst es = elements -> (forall a x, In (a, x) es -> key_at h a x) ->
  (forall y, ~ In y (map fst es) -> get h' y = get h y) -> (forall a x, In (a, x) es -> key_at h' a x) -> as_before K elements h h'.
Proof.
  intros <- Ks A B. split; [exact A|]. intros a key I Kk. apply in_map_iff in I. destruct I as ([b x] & E0 & I). cbn in E0. subst b.
  apply key_of_at in Kk. rewrite (at_unique h a key x Kk (Ks a x I)). apply key_of_at. exact (B a x I).
Qed.

Lemma perf_queues_ok junk h elements : prepared K h elements -> zlen elements < 2 ^ 60 ->
  (exists h', measure_dequeue K junk elements h = Ok (tt, h') /\ as_before K elements h h') /\
  (exists h', measure_remove K junk elements h = Ok (tt, h') /\ as_before K elements h h').
Proof.
  intros Pr Sz. destruct (prepared_pairs h elements Pr) as (es & Ee & Ks). destruct Pr as [ND _]. rewrite <- Ee in ND.
  assert (Sz' : zlen es < 2 ^ 60) by (rewrite <- Ee in Sz; unfold zlen in *; rewrite map_length in Sz; exact Sz). split.
  - destruct (measure_dequeue_ok h es ND Ks junk Sz') as (h' & E0 & A & B). rewrite Ee in E0. exists h'. split; [exact E0|]. exact (pairs_before h h' es elements Ee Ks A B).
  - destruct (measure_remove_ok h es ND Ks junk Sz') as (h' & E0 & A & B). rewrite Ee in E0. exists h'. split; [exact E0|]. exact (pairs_before h h' es elements Ee Ks A B).
Qed.
Lemma before_prepared h h' elements : prepared K h elements -> as_before K elements h h' -> prepared K h' elements.
Proof. intros [A B] [_ D]. split; [exact A|]. intros a I. destruct (B a I) as (x & Kx). exists x. exact (D a x I Kx). Qed.
Lemma before_trans h1 h2 h3 elements : as_before K elements h1 h2 -> as_before K elements h2 h3 -> as_before K elements h1 h3.
Proof. intros [A B] [A' B']. split; [intros y N; rewrite (A' y N); exact (A y N)|]. intros a x I Kx. exact (B' a x I (B a x I Kx)). Qed.

Lemma test_performance_ok junk h elements : prepared K h elements -> different_keys K h elements -> zlen elements < 2 ^ 60 ->
  exists h', test_performance K junk elements h = Ok (tt, h') /\ as_before K elements h h'.
Proof.
  intros Pr Df Sz. destruct (prepared_pairs h elements Pr) as (es & Ee & Ks).
  assert (Sz' : zlen es < 2 ^ 60) by (rewrite <- Ee in Sz; unfold zlen in *; rewrite map_length in Sz; exact Sz).
  destruct (measure_avl_ok h es) as (h1 & E1 & S1); [rewrite Ee; exact (proj1 Pr)|exact Ks| |exact Sz'|].
  { intros a x b y I J C0. assert (x = y) as <-.
    { apply order_eq; [|exact C0]. destruct (Ks a x I) as (c & _ & R). destruct (Ks b y J) as (d & _ & R'). pose proof (proj1 (key_in_of _ _ R)). pose proof (proj1 (key_in_of _ _ R')). congruence. }
    apply (Df a b x); [rewrite <- Ee; exact (in_map fst _ _ I)|rewrite <- Ee; exact (in_map fst _ _ J)|apply key_of_at; exact (Ks a x I)|apply key_of_at; exact (Ks b x J)]. }
  rewrite Ee in E1. unfold test_performance. rewrite (bnd_Ok _ _ _ _ _ E1).
  assert (B1 : as_before K elements h h1).
  { split; [intros y _; apply S1|]. intros a x _ (L & loc & G). split; [exact L|]. exists loc. rewrite S1. exact G. }
  destruct (proj1 (perf_queues_ok junk h1 elements (before_prepared _ _ _ Pr B1) Sz)) as (h2 & E2 & B2). rewrite (bnd_Ok _ _ _ _ _ E2).
  pose proof (before_trans _ _ _ _ B1 B2) as B12. destruct (proj2 (perf_queues_ok junk h2 elements (before_prepared _ _ _ Pr B12) Sz)) as (h3 & E3 & B3).
  exists h3. split; [exact E3|]. exact (before_trans _ _ _ _ B12 B3).
Qed.
End Perf.
