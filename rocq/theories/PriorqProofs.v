(** Proofs about src/priority_queue.c. *)
From Verif Require Import Base PriorqModel PriorqSpec.
From Coq Require Import ZifyBool ZifyNat.

Definition at_ (s : list Z) (i : Z) : Z := nth (Z.to_nat i) s 0.
Definition put (s : list Z) (i v : Z) : list Z := upd s (Z.to_nat i) v.

Lemma put_zlen s i v : 0 <= i < zlen s -> zlen (put s i v) = zlen s.
Proof. intros H. unfold put, zlen in *. rewrite upd_length by lia. reflexivity. Qed.
Lemma at_put_eq s i v : 0 <= i < zlen s -> at_ (put s i v) i = v.
Proof. intros H. unfold at_, put, zlen in *. apply nth_upd_eq. lia. Qed.
Lemma at_put_neq s i j v : 0 <= i < zlen s -> 0 <= j -> i <> j -> at_ (put s i v) j = at_ s j.
Proof. intros H Hj Hn. unfold at_, put, zlen in *. apply nth_upd_neq; lia. Qed.
Lemma rd_at s i : 0 <= i < zlen s -> rd s i = Ok (at_ s i).
Proof. intros H. apply rd_Ok. assumption. Qed.
Lemma wr_put s i v : 0 <= i < zlen s -> wr s i v = Ok (put s i v).
Proof. intros H. apply wr_Ok. assumption. Qed.

(** The live part. *)
Definition live (n : Z) (s : list Z) : list Z := firstn (Z.to_nat n) s.

Lemma live_zlen n s : 0 <= n <= zlen s -> zlen (live n s) = n.
Proof. intros H. unfold live, zlen in *. rewrite firstn_length. lia. Qed.

Lemma live_in n s x : 0 <= n <= zlen s -> In x (live n s) <-> exists i, 0 <= i < n /\ at_ s i = x.
Proof.
  intros Hn. unfold live, at_. split.
  - intros H. apply (In_nth _ _ 0) in H. destruct H as (k & Hk & E). rewrite firstn_length in Hk.
    exists (Z.of_nat k). split; [unfold zlen in *; lia|]. rewrite Nat2Z.id, <- E.
    rewrite <- (firstn_skipn (Z.to_nat n) s) at 1. rewrite app_nth1; [reflexivity|].
    rewrite firstn_length. lia.
  - intros (i & Hi & E). subst x.
    rewrite <- (firstn_skipn (Z.to_nat n) s) at 1. rewrite app_nth1 by (rewrite firstn_length; unfold zlen in *; lia).
    apply nth_In. rewrite firstn_length. unfold zlen in *. lia.
Qed.

Lemma live_S n s : 0 <= n < zlen s -> live (n + 1) s = live n s ++ [at_ s n].
Proof.
  intros H. unfold live, at_. destruct (split_at s n H) as (pre & x & post & -> & L).
  rewrite <- L. replace (Z.to_nat (zlen pre + 1)) with (S (length pre)) by (unfold zlen; lia).
  rewrite zlen_to_nat. rewrite !firstn_app. rewrite (firstn_all2 pre (n := S (length pre))) by lia. rewrite firstn_all.
  replace (S (length pre) - length pre)%nat with 1%nat by lia. rewrite Nat.sub_diag.
  rewrite app_nth2, Nat.sub_diag by lia. cbn [firstn nth]. rewrite app_nil_r. reflexivity.
Qed.

Lemma live_put_out n s i v : 0 <= n <= i -> i < zlen s -> live n (put s i v) = live n s.
Proof.
  intros H Hi. unfold live, put, upd. rewrite firstn_app, firstn_firstn.
  rewrite Nat.min_l by lia. rewrite firstn_length.
  replace (Z.to_nat n - Nat.min (Z.to_nat i) (length s))%nat with 0%nat by (unfold zlen in *; lia).
  apply app_nil_r.
Qed.

Lemma live_put n s i v : 0 <= i < n -> n <= zlen s ->
  exists a b, live n s = a ++ at_ s i :: b /\ live n (put s i v) = a ++ v :: b /\ zlen a = i.
Proof.
  intros Hi Hn. destruct (split_at s i ltac:(lia)) as (pre & x & post & -> & L).
  exists pre, (firstn (Z.to_nat n - length pre - 1) post). unfold live, at_, put.
  rewrite <- L, zlen_to_nat. rewrite upd_app by reflexivity. rewrite app_nth2, Nat.sub_diag by lia. cbn [nth].
  rewrite !firstn_app. rewrite !(firstn_all2 pre) by (unfold zlen in *; lia).
  replace (Z.to_nat n - length pre)%nat with (S (Z.to_nat n - length pre - 1)) by (unfold zlen in *; lia).
  cbn [firstn]. replace (S (Z.to_nat n - length pre - 1) - 1)%nat with (Z.to_nat n - length pre - 1)%nat by lia.
  auto.
Qed.

Lemma live_put_perm n s i v : 0 <= i < n -> n <= zlen s ->
  Permutation (v :: live n s) (at_ s i :: live n (put s i v)).
Proof.
  intros Hi Hn. destruct (live_put n s i v Hi Hn) as (a & b & -> & -> & _).
  transitivity (at_ s i :: v :: a ++ b).
  - rewrite perm_swap. apply perm_skip. symmetry. apply Permutation_middle.
  - apply perm_skip. apply Permutation_middle.
Qed.

(** Moving the hole from [i] to [j]. *)
Lemma move_perm n s i j v : 0 <= i < n -> 0 <= j < n -> i <> j -> n <= zlen s ->
  Permutation (live n (put (put s i (at_ s j)) j v)) (live n (put s i v)).
Proof.
  intros Hi Hj Hne Hn.
  pose proof (live_put_perm n s i v Hi Hn) as P1.
  pose proof (live_put_perm n s i (at_ s j) Hi Hn) as P2.
  pose proof (live_put_perm n (put s i (at_ s j)) j v Hj ltac:(rewrite put_zlen; lia)) as P3.
  rewrite at_put_neq in P3 by lia.
  apply (Permutation_cons_inv (a := at_ s j)). rewrite <- P3.
  apply (Permutation_cons_inv (a := at_ s i)).
  rewrite perm_swap. rewrite <- P2. rewrite perm_swap. rewrite P1. apply perm_swap.
Qed.

Definition par (i : Z) : Z := (i - 1) / 2.

Lemma par_spec i : 2 * par i + 1 <= i <= 2 * par i + 2.
Proof. unfold par. pose proof (Z.div_mod (i - 1) 2 ltac:(lia)). pose proof (Z.mod_pos_bound (i - 1) 2 ltac:(lia)). lia. Qed.

Ltac par_facts :=
  repeat match goal with
  | |- context [par ?x] => lazymatch goal with _ : 2 * par x + 1 <= x <= _ |- _ => fail | _ => pose proof (par_spec x) end
  | _ : context [par ?x] |- _ => lazymatch goal with _ : 2 * par x + 1 <= x <= _ |- _ => fail | _ => pose proof (par_spec x) end
  end.
Ltac plia := par_facts; lia.

Section Functional.
Variable cmp : Z -> Z -> Z.
Hypothesis cmp_ok : comparator cmp.

Lemma cmp_total a b : cmp a b <= 0 \/ cmp b a <= 0.
Proof. destruct cmp_ok as [H _]. specialize (H a b). lia. Qed.
Lemma cmp_trans a b c : cmp a b <= 0 -> cmp b c <= 0 -> cmp a c <= 0.
Proof. apply cmp_ok. Qed.
Lemma cmp_ge a b : cmp a b >= 0 -> cmp b a <= 0.
Proof. destruct cmp_ok as [H _]. specialize (H a b). lia. Qed.
Lemma cmp_gt a b : cmp a b > 0 -> cmp b a <= 0.
Proof. destruct cmp_ok as [H _]. specialize (H b a). lia. Qed.

(** All edges are in order. *)
Definition heap (n : Z) (s : list Z) : Prop :=
  forall i, 0 < i < n -> cmp (at_ s (par i)) (at_ s i) <= 0.

(** All edges but those at the hole [h] are in order, and the children of the
    hole are in order with its parent. *)
Definition holed (n h : Z) (s : list Z) : Prop :=
  (forall i, 0 < i < n -> i <> h -> par i <> h -> cmp (at_ s (par i)) (at_ s i) <= 0) /\
  (0 < h -> forall i, 0 < i < n -> par i = h -> cmp (at_ s (par h)) (at_ s i) <= 0).

(** Locations reported for the live elements except at the hole. *)
Definition located (n h : Z) (s : list Z) (calls : list (Z * Z)) : Prop :=
  forall i, 0 <= i < n -> i <> h -> last_loc calls (at_ s i) = Some i.

Definition wf (q : priorq) : Prop :=
  0 <= capacity q <= max_capacity q /\ zlen (storage q) = max_capacity q /\ max_capacity q <= 2 ^ 60.

Definition same_caps (q q' : priorq) : Prop :=
  capacity q' = capacity q /\ max_capacity q' = max_capacity q /\ zlen (storage q') = zlen (storage q).

Lemma same_caps_wf q q' : same_caps q q' -> wf q -> wf q'.
Proof. unfold same_caps, wf. intros (-> & -> & ->). auto. Qed.

Lemma assign_ok q slot v : 0 <= slot < zlen (storage q) ->
  assign q slot v = Ok (Priorq (put (storage q) slot v) (capacity q) (max_capacity q) ((v, slot) :: calls q)).
Proof. intros H. unfold assign. rewrite wr_put by assumption. reflexivity. Qed.

(** Distinct slots hold distinct elements. *)
Lemma nodup_at n s i j : NoDup (live n s) -> n <= zlen s -> 0 <= i < n -> 0 <= j < n -> i <> j -> at_ s i <> at_ s j.
Proof.
  intros H Hn Hi Hj Hne E. unfold at_ in E.
  rewrite <- (firstn_skipn (Z.to_nat n) s) in E.
  rewrite !app_nth1 in E by (rewrite firstn_length; unfold zlen in *; lia).
  rewrite NoDup_nth in H. apply (H (Z.to_nat i) (Z.to_nat j)) in E; try lia;
    unfold live; rewrite firstn_length; unfold zlen in *; lia.
Qed.

(** Raising the hole. *)
Lemma raise_loop_ok n value : forall fuel q slot,
  wf q -> 0 <= slot < n -> n <= zlen (storage q) -> (Z.to_nat slot < fuel)%nat ->
  holed n slot (storage q) ->
  exists q' slot', raise_loop cmp fuel q slot value = Ok (q', slot') /\
    same_caps q q' /\ 0 <= slot' <= slot /\
    holed n slot' (storage q') /\
    (0 < slot' -> cmp (at_ (storage q') (par slot')) value <= 0) /\
    ((forall i, 0 < i < n -> par i = slot -> cmp value (at_ (storage q) i) <= 0) ->
     forall i, 0 < i < n -> par i = slot' -> cmp value (at_ (storage q') i) <= 0) /\
    Permutation (live n (put (storage q') slot' value)) (live n (put (storage q) slot value)) /\
    (NoDup (live n (put (storage q) slot value)) ->
     located n slot (storage q) (calls q) -> located n slot' (storage q') (calls q')).
Proof.
  induction fuel as [|fuel IH]; intros q slot W Hs Hn Hf Hh; [lia|].
  cbn [raise_loop]. unfold truth. destruct (slot =? 0) eqn:E0; cbn [negb].
  { exists q, slot. split; [reflexivity|]. split; [repeat split|]. split; [lia|]. split; [assumption|].
    split; [lia|]. split; [auto|]. split; [reflexivity|auto]. }
  assert (Hcap : zlen (storage q) <= 2 ^ 60) by (destruct W as (_ & -> & ?); assumption).
  rewrite u64_small by lia. fold (par slot). set (p := par slot).
  assert (Hp : 0 <= p < slot) by (unfold p; plia).
  rewrite rd_at by lia. cbn [bind].
  destruct (cmp value (at_ (storage q) p) >=? 0) eqn:Ec.
  { exists q, slot. split; [reflexivity|]. split; [repeat split|]. split; [lia|]. split; [assumption|].
    split; [intros _; apply cmp_ge; fold p; lia|]. split; [auto|]. split; [reflexivity|auto]. }
  rewrite assign_ok by lia. cbn [bind].
  set (q1 := Priorq _ _ _ _).
  destruct Hh as [Hh1 Hh2].
  assert (A : forall i, 0 <= i -> i <> slot -> at_ (storage q1) i = at_ (storage q) i)
    by (intros; cbn; apply at_put_neq; lia).
  assert (As : at_ (storage q1) slot = at_ (storage q) p) by (cbn; apply at_put_eq; lia).
  assert (L1 : zlen (storage q1) = zlen (storage q)) by (cbn; apply put_zlen; lia).
  assert (S1 : same_caps q q1) by (unfold same_caps; rewrite L1; auto).
  destruct (IH q1 p) as (q' & slot' & R1 & R2 & R3 & R4 & R5 & R8 & R6 & R7).
  - eapply same_caps_wf; eassumption.
  - lia.
  - lia.
  - lia.
  - split.
    + intros i Hi Hip Hpi. destruct (Z.eq_dec i slot) as [->|Hne].
      { exfalso. apply Hpi. reflexivity. }
      rewrite (A i) by lia.
      destruct (Z.eq_dec (par i) slot) as [Ep|Ep].
      * rewrite Ep, As. unfold p. apply Hh2; [lia|lia|exact Ep].
      * rewrite A by (plia). apply Hh1; assumption.
    + intros Hp0 i Hi Hpi.
      rewrite (A (par p)) by (plia).
      assert (Ep : cmp (at_ (storage q) (par p)) (at_ (storage q) p) <= 0).
      { apply Hh1; [lia|lia|]. plia. }
      destruct (Z.eq_dec i slot) as [->|Hne]; [rewrite As; exact Ep|].
      rewrite (A i) by lia. eapply cmp_trans; [exact Ep|]. rewrite <- Hpi. apply Hh1; [lia|lia|lia].
  - exists q', slot'. split; [exact R1|]. split.
    { unfold same_caps in *. destruct R2 as (-> & -> & ->). cbn. auto. }
    split; [lia|]. split; [exact R4|]. split; [exact R5|].
    split.
    { intros _. apply R8. intros i Hi Hpi.
      destruct (Z.eq_dec i slot) as [->|Hne]; [rewrite As; lia|].
      rewrite (A i) by lia. apply (cmp_trans _ (at_ (storage q) p)); [lia|].
      rewrite <- Hpi. apply Hh1; lia. }
    assert (PM : Permutation (live n (put (storage q1) p value)) (live n (put (storage q) slot value))).
    { cbn. apply move_perm; lia. }
    split; [rewrite R6; exact PM|].
    intros ND Loc. apply R7.
    { eapply Permutation_NoDup; [symmetry; exact PM|exact ND]. }
    intros i Hi Hip. cbn [calls q1 last_loc].
    destruct (Z.eq_dec i slot) as [->|Hne].
    + change (storage q1) with (put (storage q) slot (at_ (storage q) p)). rewrite at_put_eq by lia.
      rewrite Z.eqb_refl. reflexivity.
    + rewrite A by lia. replace (at_ (storage q) p =? at_ (storage q) i) with false; [apply Loc; assumption|].
      assert (at_ (storage q) p <> at_ (storage q) i); [|lia].
      intros E.
      apply (nodup_at n (put (storage q) slot value) p i) in ND; try lia.
      * rewrite !at_put_neq in ND by lia. congruence.
      * rewrite put_zlen by lia. lia.
Qed.

(** Lowering the hole and filling it. *)
Lemma lower_loop_ok value : forall fuel q slot,
  wf q -> 0 <= slot < capacity q -> (Z.to_nat (capacity q - slot) < fuel)%nat ->
  holed (capacity q) slot (storage q) ->
  (0 < slot -> cmp (at_ (storage q) (par slot)) value <= 0) ->
  exists q', lower_loop cmp fuel q slot value = Ok q' /\ same_caps q q' /\
    heap (capacity q) (storage q') /\
    Permutation (live (capacity q) (storage q')) (live (capacity q) (put (storage q) slot value)) /\
    (NoDup (live (capacity q) (put (storage q) slot value)) ->
     located (capacity q) slot (storage q) (calls q) -> located (capacity q) (-1) (storage q') (calls q')).
Proof.
  induction fuel as [|fuel IH]; intros q slot W Hs Hf Hh Hv; [lia|].
  destruct W as (W1 & W2 & W3). destruct Hh as [Hh1 Hh2].
  set (n := capacity q) in *.
  cbn [lower_loop]. fold n. rewrite (u64_small (slot * 2 + 1)) by lia.
  set (left := slot * 2 + 1).
  assert (Stop : (forall i, 0 < i < n -> par i = slot -> cmp value (at_ (storage q) i) <= 0) ->
    exists q', assign q slot value = Ok q' /\ same_caps q q' /\
    heap n (storage q') /\
    Permutation (live n (storage q')) (live n (put (storage q) slot value)) /\
    (NoDup (live n (put (storage q) slot value)) ->
     located n slot (storage q) (calls q) -> located n (-1) (storage q') (calls q'))).
  { intros Hc. rewrite assign_ok by lia. eexists. split; [reflexivity|]. cbn [storage calls].
    split. { unfold same_caps. cbn. rewrite put_zlen by lia. auto. }
    split.
    - intros i Hi. destruct (Z.eq_dec i slot) as [->|Hne].
      + rewrite at_put_eq by lia. rewrite at_put_neq by (plia). apply Hv. lia.
      + rewrite (at_put_neq _ slot i) by lia. destruct (Z.eq_dec (par i) slot) as [E|E].
        * rewrite E, at_put_eq by lia. apply Hc; assumption.
        * rewrite at_put_neq by (plia). apply Hh1; assumption.
    - split; [reflexivity|]. intros ND Loc i Hi _. cbn [last_loc].
      destruct (Z.eq_dec i slot) as [->|Hne].
      + rewrite at_put_eq by lia. rewrite Z.eqb_refl. reflexivity.
      + rewrite at_put_neq by lia. replace (value =? at_ (storage q) i) with false; [apply Loc; assumption|].
        assert (value <> at_ (storage q) i); [|lia]. intros E.
        apply (nodup_at n (put (storage q) slot value) slot i) in ND; try lia.
        * rewrite at_put_eq, at_put_neq in ND by lia. congruence.
        * rewrite put_zlen by lia. lia. }
  destruct (left >=? n) eqn:El.
  { apply Stop. intros i Hi Hp. unfold left in *. plia. }
  rewrite (u64_small (left + 1)) by lia. set (right := left + 1).
  (* the smaller child *)
  assert (Br : exists b,
    (if right >=? n then Ok left
     else x <- rd (storage q) left ;; y <- rd (storage q) right ;; Ok (if cmp x y <? 0 then left else right)) = Ok b /\
    (b = left \/ b = right) /\ 0 < b < n /\
    forall i, 0 < i < n -> par i = slot -> cmp (at_ (storage q) b) (at_ (storage q) i) <= 0).
  { assert (Refl : forall x, cmp x x <= 0) by (intros x; destruct (cmp_total x x); assumption).
    destruct (right >=? n) eqn:Er.
    - exists left. split; [reflexivity|]. split; [auto|]. split; [unfold left in *; lia|].
      intros i Hi Hp. replace i with left by (unfold right, left in *; plia). apply Refl.
    - rewrite rd_at by (unfold right, left in *; lia). cbn [bind]. rewrite rd_at by (unfold right, left in *; lia). cbn [bind].
      eexists. split; [reflexivity|].
      destruct (cmp (at_ (storage q) left) (at_ (storage q) right) <? 0) eqn:Ec.
      + split; [auto|]. split; [unfold left in *; lia|]. intros i Hi Hp.
        assert (i = left \/ i = right) as [->| ->] by (unfold right, left in *; plia); [apply Refl|lia].
      + split; [auto|]. split; [unfold right, left in *; lia|]. intros i Hi Hp.
        assert (i = left \/ i = right) as [->| ->] by (unfold right, left in *; plia); [|apply Refl].
        apply cmp_ge. lia. }
  destruct Br as (b & Eb & Hb & Hbn & Hmin). rewrite Eb. cbn [bind].
  assert (Pb : par b = slot) by (unfold right, left in *; plia).
  assert (Hbs : slot < b) by (plia).
  clear Eb Hb El. clearbody left right. clear left right.
  rewrite rd_at by lia. cbn [bind].
  destruct (cmp value (at_ (storage q) b) <=? 0) eqn:Ev.
  { apply Stop. intros i Hi Hp. eapply cmp_trans; [|apply Hmin; assumption]. lia. }
  clear Stop.
  rewrite assign_ok by lia. cbn [bind].
  set (q1 := Priorq _ _ _ _).
  assert (A : forall i, 0 <= i -> i <> slot -> at_ (storage q1) i = at_ (storage q) i)
    by (intros; cbn; apply at_put_neq; lia).
  assert (As : at_ (storage q1) slot = at_ (storage q) b) by (cbn; apply at_put_eq; lia).
  assert (L1 : zlen (storage q1) = zlen (storage q)) by (cbn; apply put_zlen; lia).
  assert (S1 : same_caps q q1) by (unfold same_caps; rewrite L1; auto).
  assert (C1 : capacity q1 = n) by reflexivity.
  destruct (IH q1 b) as (q' & R1 & R2 & R3 & R4 & R5); rewrite ?C1.
  - eapply same_caps_wf; [exact S1|]. unfold wf. fold n. lia.
  - lia.
  - lia.
  - split.
    + intros i Hi Hib Hpi.
      destruct (Z.eq_dec i slot) as [->|Hne].
      * rewrite As. rewrite A by (plia). apply Hh2; [lia|lia|exact Pb].
      * rewrite (A i) by lia. destruct (Z.eq_dec (par i) slot) as [Ep|Ep].
        -- rewrite Ep, As. apply Hmin; assumption.
        -- rewrite A by (plia). apply Hh1; assumption.
    + intros Hb0 i Hi Hpi. rewrite Pb, As. rewrite (A i) by (plia).
      rewrite <- Hpi. apply Hh1; [lia| |lia]. plia.
  - intros _. rewrite Pb, As. apply cmp_gt. lia.
  - rewrite C1 in *. exists q'. split; [exact R1|].
    split. { unfold same_caps in *. destruct R2 as (-> & -> & ->). cbn. auto. }
    split; [exact R3|].
    assert (PM : Permutation (live n (put (storage q1) b value)) (live n (put (storage q) slot value))).
    { cbn. apply move_perm; lia. }
    split; [rewrite R4; exact PM|].
    intros ND Loc. apply R5.
    { eapply Permutation_NoDup; [symmetry; exact PM|exact ND]. }
    intros i Hi Hip. cbn [calls q1 last_loc].
    destruct (Z.eq_dec i slot) as [->|Hne].
    + change (storage q1) with (put (storage q) slot (at_ (storage q) b)). rewrite at_put_eq by lia.
      rewrite Z.eqb_refl. reflexivity.
    + rewrite A by lia. replace (at_ (storage q) b =? at_ (storage q) i) with false; [apply Loc; assumption|].
      assert (at_ (storage q) b <> at_ (storage q) i); [|lia].
      intros E.
      apply (nodup_at n (put (storage q) slot value) b i) in ND; try lia.
      * rewrite !at_put_neq in ND by lia. congruence.
      * rewrite put_zlen by lia. lia.
Qed.

(** ** The invariant between operations *)

Definition inv (P : list Z -> Prop) (q : priorq) (m : list Z) : Prop :=
  wf q /\ heap (capacity q) (storage q) /\ Permutation (live (capacity q) (storage q)) m /\
  P m /\
  ((forall m, P m -> NoDup m) -> located (capacity q) (-1) (storage q) (calls q)).

Lemma inv_size P q m : inv P q m -> zlen m = capacity q.
Proof.
  intros (W & _ & Pm & _). apply Permutation_length in Pm. unfold zlen. rewrite <- Pm.
  fold (zlen (live (capacity q) (storage q))). apply live_zlen. destruct W as (? & -> & _). lia.
Qed.

Lemma heap_holed n h s : heap n s -> 0 <= h -> holed n h s.
Proof.
  intros H Hh. split.
  - intros i Hi _ _. apply H. assumption.
  - intros H0 i Hi Hp. destruct (Z.lt_ge_cases h n).
    + eapply cmp_trans; [apply (H h); lia|]. rewrite <- Hp. apply H. assumption.
    + plia.
Qed.

Lemma heap_less n n' s : heap n s -> n' <= n -> heap n' s.
Proof. intros H Hn i Hi. apply H. lia. Qed.

Lemma located_less n n' h s c : located n h s c -> n' <= n -> located n' h s c.
Proof. intros H Hn i Hi. apply H. lia. Qed.

Lemma round_loop_ok target : target < 2 ^ 64 -> forall fuel k,
  0 <= k <= 63 -> (Z.to_nat (64 - k) < fuel)%nat ->
  exists n, round_loop fuel target (2 ^ k) = Ok n /\ target <= n < 2 ^ 64 /\ 2 ^ k <= n /\
    (target <= 2 ^ 60 -> k <= 60 -> n <= 2 ^ 60 /\ exists k, 0 <= k /\ n = 2 ^ k).
Proof.
  intros Ht. induction fuel as [|fuel IH]; intros k Hk Hf; [lia|]. cbn [round_loop].
  assert (Pk : 0 < 2 ^ k < 2 ^ 64) by (split; [apply Z.pow_pos_nonneg; lia|apply Z.pow_lt_mono_r; lia]).
  destruct (2 ^ k <? target) eqn:E.
  2: { exists (2 ^ k). split; [reflexivity|]. split; [lia|]. split; [lia|]. intros. split; [apply Z.pow_le_mono_r; lia|]. exists k. split; [lia|reflexivity]. }
  destruct (2 ^ k >? SIZE_MAX / 2) eqn:E2.
  - exists SIZE_MAX. split; [reflexivity|]. unfold SIZE_MAX in *. split; [lia|]. split; [lia|].
    intros T K. assert (2 ^ k <= 2 ^ 60) by (apply Z.pow_le_mono_r; lia). lia.
  - assert (Hk' : k < 63).
    { destruct (Z.eq_dec k 63) as [->|]; [|lia]. exfalso. unfold SIZE_MAX in E2. lia. }
    rewrite Z.shiftl_mul_pow2 by lia.
    assert (P2 : 2 ^ (k + 1) = 2 ^ k * 2 ^ 1) by (apply Z.pow_add_r; lia).
    assert (Q : 2 ^ (k + 1) < 2 ^ 64) by (apply Z.pow_lt_mono_r; lia).
    rewrite <- P2. rewrite u64_small by lia.
    destruct (IH (k + 1) ltac:(lia) ltac:(lia)) as (n & H1 & H2 & H3 & H4).
    exists n. split; [exact H1|]. split; [lia|]. split; [lia|]. intros T K.
    destruct (Z.eq_dec k 60) as [->|]; [lia|]. apply H4; lia.
Qed.

Lemma grow_ok junk q : wf q -> capacity q + 1 < 2 ^ 60 ->
  exists q1, (if capacity q =? max_capacity q then
          n <- round_loop 66 (u64 (capacity q + 1)) 1 ;;
          Ok (Priorq (realloc_slots junk (storage q) n) (capacity q) n (calls q))
        else Ok q) = Ok q1 /\ wf q1 /\ capacity q1 = capacity q /\ capacity q < max_capacity q1 /\
    calls q1 = calls q /\ (forall i, 0 <= i < capacity q -> at_ (storage q1) i = at_ (storage q) i) /\
    live (capacity q) (storage q1) = live (capacity q) (storage q) /\
    (max_capacity q1 = max_capacity q \/ exists k, 0 <= k /\ max_capacity q1 = 2 ^ k).
Proof.
  intros W Hr. pose proof W as (W1 & W2 & W3). destruct (capacity q =? max_capacity q) eqn:E.
  2: { exists q. split; [reflexivity|]. split; [assumption|]. split; [reflexivity|]. split; [lia|]. auto. }
  destruct (round_loop_ok (u64 (capacity q + 1)) ltac:(rewrite u64_small; lia) 66 0 ltac:(lia) ltac:(lia))
    as (n & N1 & N2 & N3 & N4). change (2 ^ 0) with 1 in N1. rewrite N1. cbn [bind].
  rewrite u64_small in N2, N4 by lia. specialize (N4 ltac:(lia) ltac:(lia)). destruct N4 as [N4 N5].
  assert (S : realloc_slots junk (storage q) n = storage q ++ fresh_block junk (n - zlen (storage q))).
  { unfold realloc_slots. rewrite u64_small by lia. rewrite Z.div_mul by lia.
    rewrite firstn_all2; [reflexivity|]. unfold zlen in *. lia. }
  eexists. split; [reflexivity|]. unfold wf. cbn [storage capacity max_capacity calls]. rewrite S.
  split. { rewrite zlen_app, fresh_block_zlen by lia. lia. }
  split; [reflexivity|]. split; [lia|]. split; [reflexivity|]. split.
  - intros i Hi. unfold at_. rewrite app_nth1 by (unfold zlen in *; lia). reflexivity.
  - split; [|right; exact N5].
    unfold live. rewrite firstn_app. replace (Z.to_nat (capacity q) - length (storage q))%nat with 0%nat
      by (unfold zlen in *; lia). apply app_nil_r.
Qed.

Lemma enqueue_ok P junk q m v : inv P q m -> room m -> P (v :: m) ->
  exists q', priorq_enqueue cmp junk q v = Ok q' /\ inv P q' (v :: m).
Proof.
  intros I Hr Pv. pose proof (inv_size P q m I) as Hsz. destruct I as (W & Hh & Hp & Pm & Hl).
  unfold room in Hr. unfold priorq_enqueue.
  destruct (grow_ok junk q W ltac:(lia)) as (q1 & -> & W1 & C1 & M1 & Cl & A1 & L1 & _). cbn [bind].
  rewrite C1. set (n := capacity q) in *.
  assert (Hn : 0 <= n) by (destruct W; lia).
  rewrite u64_small by lia.
  set (q2 := Priorq (storage q1) (n + 1) (max_capacity q1) (calls q1)).
  pose proof W1 as (Wa & Wb & Wc).
  assert (W2 : wf q2) by (unfold wf, q2; cbn; lia).
  unfold raise.
  destruct (raise_loop_ok (n + 1) v (S (length (storage q2))) q2 n) as (q3 & slot & R1 & R2 & R3 & R4 & R5 & R8 & R6 & R7).
  - assumption.
  - lia.
  - unfold q2. cbn. lia.
  - unfold q2. cbn [storage]. unfold zlen in *. lia.
  - split.
    + intros i Hi Hin _. change (storage q2) with (storage q1). rewrite !A1 by (plia). apply Hh. lia.
    + intros H0 i Hi Hpar. plia.
  - rewrite R1. cbn [bind]. destruct R2 as (R2a & R2b & R2c).
    assert (H3 : 0 <= slot < zlen (storage q3)) by (rewrite R2c; unfold q2; cbn; lia).
    rewrite assign_ok by assumption. eexists. split; [reflexivity|].
    unfold inv. cbn [storage capacity max_capacity calls]. rewrite R2a. change (capacity q2) with (n + 1).
    assert (PM : Permutation (live (n + 1) (put (storage q3) slot v)) (v :: m)).
    { rewrite R6. unfold q2. cbn [storage].
      rewrite live_S by (rewrite put_zlen by lia; lia). rewrite at_put_eq by lia.
      rewrite live_put_out by lia. rewrite L1. rewrite <- Permutation_cons_append. apply perm_skip. exact Hp. }
    split.
    { unfold wf. cbn. rewrite put_zlen by assumption. rewrite R2b, R2c. unfold q2. cbn. lia. }
    split.
    { intros i Hi. destruct R4 as [R4a R4b]. destruct (Z.eq_dec i slot) as [->|Hne].
      - rewrite at_put_eq by assumption. rewrite at_put_neq by (plia). apply R5. lia.
      - rewrite (at_put_neq _ slot i) by lia. destruct (Z.eq_dec (par i) slot) as [E|E].
        + rewrite E, at_put_eq by assumption.
          apply R8; [|lia|assumption]. intros k Hk Hpk. plia.
        + rewrite at_put_neq by (plia). apply R4a; lia. }
    split; [exact PM|]. split; [exact Pv|].
    intros PN i Hi _. cbn [last_loc].
    assert (ND : NoDup (live (n + 1) (put (storage q3) slot v))).
    { eapply Permutation_NoDup; [symmetry; exact PM|]. apply PN, Pv. }
    destruct (Z.eq_dec i slot) as [->|Hne].
    + rewrite at_put_eq by assumption. rewrite Z.eqb_refl. reflexivity.
    + rewrite at_put_neq by lia.
      assert (Nv : v <> at_ (storage q3) i).
      { intros E. apply (nodup_at (n + 1) _ slot i) in ND; try lia.
        * rewrite at_put_eq, at_put_neq in ND by lia. congruence.
        * rewrite put_zlen by lia. rewrite R2c. unfold q2. cbn. lia. }
      replace (v =? at_ (storage q3) i) with false by lia.
      apply R7; [|  | lia|assumption].
      * eapply Permutation_NoDup; [exact R6|exact ND].
      * intros k Hk Hkn. unfold q2. cbn [storage calls]. rewrite A1 by lia. rewrite Cl. apply Hl; [assumption|lia|lia].
Qed.

Lemma heap_root n s : heap n s -> forall k i, (Z.to_nat i <= k)%nat -> 0 <= i < n -> cmp (at_ s 0) (at_ s i) <= 0.
Proof.
  intros H. induction k as [|k IH]; intros i Hk Hi.
  - replace i with 0 by lia. destruct (cmp_total (at_ s 0) (at_ s 0)); assumption.
  - destruct (Z.eq_dec i 0) as [->|]; [destruct (cmp_total (at_ s 0) (at_ s 0)); assumption|].
    eapply cmp_trans; [apply (IH (par i)); plia|]. apply H. lia.
Qed.

Lemma shrink_wf q : wf q -> 0 < capacity q -> wf (shrink q) /\ capacity (shrink q) = capacity q - 1.
Proof.
  intros (W1 & W2 & W3) H. unfold wf, shrink. cbn [storage capacity max_capacity]. rewrite u64_small by lia. lia.
Qed.

Lemma root_least P q m : inv P q m -> 0 < capacity q -> least cmp (at_ (storage q) 0) m.
Proof.
  intros (W & Hh & Hp & _) H0. assert (Hn : 0 <= capacity q <= zlen (storage q)) by (destruct W as (? & -> & _); lia).
  split.
  - eapply Permutation_in; [exact Hp|]. apply live_in; [assumption|]. exists 0. split; [lia|reflexivity].
  - intros y Hy. apply (Permutation_in y (Permutation_sym Hp)) in Hy. apply live_in in Hy; [|assumption].
    destruct Hy as (i & Hi & <-). eapply heap_root; [exact Hh|apply Nat.le_refl|assumption].
Qed.

(** Taking out the last slot. *)
Lemma last_ok P q m : inv P q m -> 0 < capacity q ->
  let x := at_ (storage q) (capacity q - 1) in
  Permutation m (x :: live (capacity q - 1) (storage q)) /\
  forall c m', Permutation m (x :: m') -> P m' ->
    ((forall m, P m -> NoDup m) -> located (capacity q - 1) (-1) (storage q) c) ->
    inv P (Priorq (storage q) (capacity q - 1) (max_capacity q) c) m'.
Proof.
  intros I H0 x. destruct I as (W & Hh & Hp & Pm & Hl).
  pose proof W as (W1 & W2 & W3).
  assert (E : Permutation m (x :: live (capacity q - 1) (storage q))).
  { rewrite <- Hp. replace (capacity q) with (capacity q - 1 + 1) at 1 by lia. rewrite live_S by lia.
    symmetry. apply Permutation_cons_append. }
  split; [exact E|]. intros c m' Hm Pm' Loc. unfold inv. cbn [storage capacity calls max_capacity].
  split. { unfold wf. cbn. lia. }
  split. { eapply heap_less; [exact Hh|lia]. }
  split. { apply (Permutation_cons_inv (a := x)). rewrite <- E. exact Hm. }
  split; assumption.
Qed.

Lemma pop_ok P q m : inv P q m -> 0 < capacity q ->
  exists q' x, priorq_pop q = Ok (q', x) /\ (exists m', Permutation m (x :: m')) /\
    forall m', Permutation m (x :: m') -> P m' -> inv P q' m'.
Proof.
  intros I H0. destruct (last_ok P q m I H0) as [L1 L2]. cbv zeta in L1, L2.
  pose proof I as (W & Hh & Hp & Pm & Hl).
  destruct (shrink_wf q W H0) as (Ws & Cs).
  unfold priorq_pop, priorq_empty, priorq_size. replace (capacity q =? 0) with false by lia.
  rewrite Cs. rewrite rd_at by (destruct W as (? & Wb & _); cbn; lia). cbn [bind].
  eexists _, _. split; [reflexivity|]. cbn [shrink storage]. split; [eexists; exact L1|].
  intros m' Hm Pm'. unfold shrink. change (u64 (capacity q - 1)) with (capacity (shrink q)). rewrite Cs.
  apply L2; try assumption. intros PN. eapply located_less; [apply Hl; assumption|lia].
Qed.

(** Taking out slot [slot] by moving the last element there. *)
Lemma refill_ok P q m slot (x := at_ (storage q) slot) (other := at_ (storage q) (capacity q - 1)) :
  inv P q m -> 0 <= slot < capacity q - 1 ->
  exists q2 slot2,
    raise cmp (shrink q) slot other = Ok (q2, slot2) /\
    exists q', lower cmp q2 slot2 other = Ok q' /\
    (exists m', Permutation m (x :: m')) /\
    forall m', Permutation m (x :: m') -> P m' -> inv P q' m'.
Proof.
  intros I Hs. pose proof I as (W & Hh & Hp & Pm & Hl).
  destruct (shrink_wf q W ltac:(lia)) as (Ws & Cs).
  pose proof W as (W1 & W2 & W3). set (n := capacity q - 1) in *.
  assert (St : storage (shrink q) = storage q) by reflexivity.
  assert (PM : Permutation m (x :: live n (put (storage q) slot other))).
  { rewrite <- Hp. replace (capacity q) with (n + 1) by lia. rewrite live_S by lia.
    rewrite <- Permutation_cons_append. apply (live_put_perm n (storage q) slot); lia. }
  unfold raise.
  destruct (raise_loop_ok n other (S (length (storage (shrink q)))) (shrink q) slot)
    as (q2 & slot2 & R1 & R2 & R3 & R4 & R5 & _ & R6 & R7).
  - assumption.
  - lia.
  - rewrite St. lia.
  - rewrite St. unfold zlen in *. lia.
  - rewrite St. apply heap_holed; [|lia]. eapply heap_less; [exact Hh|lia].
  - exists q2, slot2. split; [exact R1|]. destruct R2 as (R2a & R2b & R2c). rewrite St in *.
    assert (C2 : capacity q2 = n) by lia.
    unfold lower.
    destruct (lower_loop_ok other (S (length (storage q2))) q2 slot2) as (q' & T1 & T2 & T3 & T4 & T5).
    + eapply same_caps_wf; [|exact Ws]. unfold same_caps. rewrite St. auto.
    + lia.
    + rewrite C2. unfold zlen in *. lia.
    + rewrite C2. assumption.
    + assumption.
    + exists q'. split; [exact T1|]. split; [eexists; exact PM|]. intros m' Hm Pm'.
      rewrite C2 in *. destruct T2 as (T2a & T2b & T2c).
      assert (Em : Permutation (live n (put (storage q) slot other)) m').
      { apply (Permutation_cons_inv (a := x)). rewrite <- PM. exact Hm. }
      unfold inv. replace (capacity q') with n by lia.
      split. { unfold wf. cbn in R2b. lia. }
      split; [exact T3|]. split; [rewrite T4, R6; exact Em|]. split; [assumption|].
      intros PN.
      assert (ND : NoDup (live n (put (storage q) slot other))).
      { eapply Permutation_NoDup; [symmetry; exact Em|]. apply PN. assumption. }
      apply T5; [eapply Permutation_NoDup; [symmetry; exact R6|exact ND]|].
      apply R7; [exact ND|]. intros i Hi Hne. cbn [shrink calls]. apply Hl; [assumption|lia|lia].
Qed.

Lemma dequeue_ok P q m : inv P q m -> 0 < capacity q ->
  exists q' x, priorq_dequeue cmp q = Ok (q', x) /\ least cmp x m /\ (exists m', Permutation m (x :: m')) /\
    forall m', Permutation m (x :: m') -> P m' -> inv P q' m'.
Proof.
  intros I H0. pose proof (root_least P q m I H0) as Hle. pose proof I as (W & Hh & Hp & Pm & Hl).
  pose proof W as (W1 & W2 & W3).
  unfold priorq_dequeue. replace (capacity q =? 0) with false by lia.
  destruct (shrink_wf q W H0) as (Ws & Cs).
  destruct (capacity q =? 1) eqn:E1.
  - destruct (pop_ok P q m I H0) as (q' & x & P1 & P2 & P3).
    unfold priorq_pop, priorq_empty, priorq_size in P1. replace (capacity q =? 0) with false in P1 by lia.
    rewrite P1. exists q', x. split; [reflexivity|].
    rewrite Cs in P1. rewrite rd_at in P1 by (cbn; lia). cbn [bind] in P1.
    assert (x = at_ (storage q) 0) as ->.
    { replace (capacity q - 1) with 0 in P1 by lia. inversion P1. reflexivity. }
    auto.
  - rewrite rd_at by lia. cbn [bind]. rewrite Cs. rewrite rd_at by (cbn; lia). cbn [bind].
    cbn [shrink storage].
    destruct (refill_ok P q m 0 I ltac:(lia)) as (q2 & slot2 & R1 & q' & R2 & R3 & R4).
    unfold raise in R1. cbn [raise_loop] in R1. change (truth 0) with false in R1. cbn iota in R1.
    inversion R1. subst q2 slot2. clear R1. fold (shrink q). rewrite R2. cbn [bind].
    exists q', (at_ (storage q) 0). auto.
Qed.

Lemma remove_ok P q m loc : inv P q m -> 0 <= loc < capacity q ->
  exists q', priorq_remove cmp q loc = Ok (q', at_ (storage q) loc) /\
    (exists m', Permutation m (at_ (storage q) loc :: m')) /\
    forall m', Permutation m (at_ (storage q) loc :: m') -> P m' -> inv P q' m'.
Proof.
  intros I Hloc. pose proof I as (W & Hh & Hp & Pm & Hl).
  pose proof W as (W1 & W2 & W3).
  destruct (shrink_wf q W ltac:(lia)) as (Ws & Cs).
  unfold priorq_remove. rewrite rd_at by lia. cbn [bind]. rewrite Cs. rewrite rd_at by (cbn; lia). cbn [bind].
  change (storage (shrink q)) with (storage q).
  destruct (Z.eq_dec loc (capacity q - 1)) as [El|El].
  - destruct (last_ok P q m I ltac:(lia)) as [L1 L2]. cbv zeta in L1, L2. rewrite <- El in *.
    set (x := at_ (storage q) loc) in *.
    assert (Er : raise cmp (shrink q) loc x = Ok (shrink q, loc)).
    { unfold raise. cbn [raise_loop]. unfold truth. destruct (loc =? 0) eqn:E0; cbn [negb]; [reflexivity|].
      rewrite u64_small by lia. fold (par loc). change (storage (shrink q)) with (storage q).
      rewrite rd_at by plia. cbn [bind].
      assert (cmp (at_ (storage q) (par loc)) x <= 0) by (apply Hh; lia).
      replace (cmp x (at_ (storage q) (par loc)) >=? 0) with true; [reflexivity|].
      symmetry. destruct cmp_ok as [Hc _]. specialize (Hc x (at_ (storage q) (par loc))). lia. }
    rewrite Er. cbn [bind].
    assert (Elow : lower cmp (shrink q) loc x = assign (shrink q) loc x).
    { unfold lower. cbn [lower_loop]. rewrite Cs. rewrite u64_small by lia.
      replace (loc * 2 + 1 >=? loc) with true by lia. reflexivity. }
    rewrite Elow, assign_ok by (cbn; lia). cbn [bind].
    eexists. split; [reflexivity|]. split; [eexists; exact L1|].
    intros m' Hm Pm'. rewrite Cs. cbn [shrink storage max_capacity calls].
    assert (Eput : put (storage q) loc x = storage q).
    { unfold put, x, at_. destruct (split_at (storage q) loc ltac:(lia)) as (pre & y & post & -> & L).
      rewrite <- L, zlen_to_nat. rewrite upd_app by reflexivity. rewrite app_nth2, Nat.sub_diag by lia. reflexivity. }
    rewrite Eput. apply L2; try assumption.
    intros PN i Hi Hn. cbn [last_loc].
    assert (x <> at_ (storage q) i).
    { apply (nodup_at (capacity q)); try lia.
      eapply Permutation_NoDup; [symmetry; exact Hp|]. apply PN. assumption. }
    replace (x =? at_ (storage q) i) with false by lia. apply Hl; [assumption|lia|lia].
  - destruct (refill_ok P q m loc I ltac:(lia)) as (q2 & slot2 & R1 & q' & R2 & R3 & R4).
    rewrite R1. cbn [bind]. rewrite R2. cbn [bind]. exists q'. auto.
Qed.

(** ** Histories *)

Lemma nil_capacity q : wf q -> zlen (@nil Z) = capacity q -> capacity q = 0.
Proof. intros _ H. change (zlen (@nil Z)) with 0 in H. lia. Qed.

Lemma perm_nonempty (m : list Z) x m' : Permutation m (x :: m') -> 0 < zlen m.
Proof. intros H. apply Permutation_length in H. unfold zlen. rewrite H. cbn [length]. lia. Qed.

Lemma history_inv P q m : history cmp P q m -> inv P q m.
Proof.
  induction 1 as [P0|q m junk v q' Hi IH Hr Pv E|q m q' x m' Hi IH Pm' E Hm|q m q' x m' Hi IH Pm' E Hm|q m loc q' x m' Hi IH Pm' Hl E Hm].
  - unfold inv. split; [unfold wf; cbn; lia|]. split; [intros i Hi; cbn in Hi; lia|]. split; [reflexivity|].
    split; [assumption|]. intros _ i Hi. cbn in Hi. lia.
  - destruct (enqueue_ok P junk q m v IH Hr Pv) as (q2 & E2 & I2). congruence.
  - pose proof (perm_nonempty m x m' Hm). pose proof (inv_size P q m IH).
    destruct (dequeue_ok P q m IH ltac:(lia)) as (q2 & x2 & E2 & _ & _ & I2).
    rewrite E in E2. inversion E2. subst. auto.
  - pose proof (perm_nonempty m x m' Hm). pose proof (inv_size P q m IH).
    destruct (pop_ok P q m IH ltac:(lia)) as (q2 & x2 & E2 & _ & I2).
    rewrite E in E2. inversion E2. subst. auto.
  - destruct (remove_ok P q m loc IH Hl) as (q2 & E2 & _ & I2).
    rewrite E in E2. inversion E2. subst. auto.
Qed.

Lemma history_size P q m : history cmp P q m -> priorq_size q = zlen m /\ (priorq_empty q = true <-> m = []).
Proof.
  intros H. apply history_inv in H. pose proof (inv_size P q m H) as E. unfold priorq_empty, priorq_size. rewrite <- E.
  split; [reflexivity|]. destruct m as [|x m]; [tauto|]. rewrite zlen_cons. pose proof (zlen_nonneg m). split; [lia|discriminate].
Qed.

Lemma dequeue_history P q m : history cmp P q m -> m <> [] ->
  exists q' x m', priorq_dequeue cmp q = Ok (q', x) /\ least cmp x m /\ Permutation m (x :: m') /\
    (P m' -> history cmp P q' m').
Proof.
  intros H Hm. pose proof (history_inv P q m H) as I. pose proof (inv_size P q m I) as E.
  assert (0 < zlen m) by (destruct m as [|y m]; [congruence|]; rewrite zlen_cons; pose proof (zlen_nonneg m); lia).
  destruct (dequeue_ok P q m I ltac:(lia)) as (q' & x & E1 & Le & (m' & Hp) & I').
  exists q', x, m'. split; [exact E1|]. split; [exact Le|]. split; [exact Hp|]. intros Pm'.
  eapply H_dequeue; eassumption.
Qed.

Lemma peek_history P q m : history cmp P q m -> m <> [] ->
  exists x q', priorq_peek q = Ok x /\ priorq_dequeue cmp q = Ok (q', x) /\ least cmp x m.
Proof.
  intros H Hm. pose proof (history_inv P q m H) as I. pose proof (inv_size P q m I) as E.
  assert (Hz : 0 < zlen m) by (destruct m as [|y m]; [congruence|]; rewrite zlen_cons; pose proof (zlen_nonneg m); lia).
  destruct (dequeue_ok P q m I ltac:(lia)) as (q' & x & E1 & Le & _ & _).
  pose proof I as (W & _). pose proof W as (W1 & W2 & W3).
  exists x, q'. split; [|split; assumption].
  unfold priorq_peek, priorq_empty, priorq_size. replace (capacity q =? 0) with false by lia.
  unfold priorq_dequeue in E1. replace (capacity q =? 0) with false in E1 by lia.
  destruct (capacity q =? 1) eqn:C1.
  - destruct (shrink_wf q W ltac:(lia)) as (Ws & Cs). rewrite Cs in E1.
    replace (capacity q - 1) with 0 in E1 by lia. change (storage (shrink q)) with (storage q) in E1.
    rewrite rd_at in E1 |- * by lia. cbn [bind] in E1. inversion E1. reflexivity.
  - rewrite rd_at in E1 |- * by lia. cbn [bind] in E1.
    destruct (rd (storage (shrink q)) (capacity (shrink q))); try discriminate. cbn [bind] in E1.
    destruct (lower cmp (shrink q) 0 a); try discriminate. cbn [bind] in E1. inversion E1. reflexivity.
Qed.

Lemma empty_history P q : history cmp P q [] ->
  priorq_dequeue cmp q = Ok (q, 0) /\ priorq_peek q = Ok 0 /\ priorq_pop q = Ok (q, 0).
Proof.
  intros H. apply history_size in H. destruct H as [_ He]. assert (E : priorq_empty q = true) by (apply He; reflexivity).
  unfold priorq_dequeue, priorq_peek, priorq_pop. rewrite E. unfold priorq_empty, priorq_size in E. rewrite E. auto.
Qed.

Lemma multiset_history P q m : history cmp P q m ->
  (forall junk v, room m -> P (v :: m) -> exists q', priorq_enqueue cmp junk q v = Ok q' /\ history cmp P q' (v :: m)) /\
  (m <> [] -> exists q' x m', priorq_dequeue cmp q = Ok (q', x) /\ Permutation m (x :: m') /\ (P m' -> history cmp P q' m')) /\
  (m <> [] -> exists q' x m', priorq_pop q = Ok (q', x) /\ Permutation m (x :: m') /\ (P m' -> history cmp P q' m')) /\
  (forall loc, 0 <= loc < zlen m ->
    exists q' x m', priorq_remove cmp q loc = Ok (q', x) /\ Permutation m (x :: m') /\ (P m' -> history cmp P q' m')).
Proof.
  intros H. pose proof (history_inv P q m H) as I. pose proof (inv_size P q m I) as E.
  assert (Hz : m <> [] -> 0 < capacity q).
  { rewrite <- E. destruct m as [|y m]; [congruence|]. intros _. rewrite zlen_cons. pose proof (zlen_nonneg m). lia. }
  split; [|split; [|split]].
  - intros junk v Hr Pv. destruct (enqueue_ok P junk q m v I Hr Pv) as (q' & E1 & _). exists q'. split; [exact E1|].
    eapply H_enqueue; eassumption.
  - intros Hm. destruct (dequeue_history P q m H Hm) as (q' & x & m' & A & _ & B & C). exists q', x, m'. auto.
  - intros Hm. destruct (pop_ok P q m I (Hz Hm)) as (q' & x & A & (m' & B) & C). exists q', x, m'.
    split; [exact A|]. split; [exact B|]. intros Pm'. eapply H_pop; eassumption.
  - intros loc Hl. destruct (remove_ok P q m loc I ltac:(lia)) as (q' & A & (m' & B) & C). eexists q', _, m'.
    split; [exact A|]. split; [exact B|]. intros Pm'. eapply H_remove; try eassumption. unfold priorq_size. lia.
Qed.

Lemma drain_ok : forall n q m, history cmp anything q m -> length m = n ->
  exists q' l, drain cmp n q = Ok (q', l) /\ Permutation l m /\ nondecreasing cmp l /\ priorq_empty q' = true.
Proof.
  induction n as [|n IH]; intros q m H Hn.
  - destruct m as [|]; [|discriminate]. exists q, []. cbn. split; [reflexivity|]. split; [reflexivity|]. split; [exact I|].
    apply history_size in H. apply H. reflexivity.
  - destruct (dequeue_history anything q m H ltac:(destruct m; discriminate)) as (q1 & x & m1 & E1 & Le & Hp & H1).
    pose proof (Permutation_length Hp) as L. cbn [length] in L.
    destruct (IH q1 m1 (H1 I) ltac:(lia)) as (q2 & l & E2 & Hp2 & Nd & Em).
    exists q2, (x :: l). cbn [drain]. rewrite E1. cbn [bind]. rewrite E2. cbn [bind].
    split; [reflexivity|]. split; [rewrite Hp2; symmetry; exact Hp|]. split; [|exact Em].
    cbn [nondecreasing]. split; [|exact Nd]. intros y Hy. apply Le.
    eapply Permutation_in; [symmetry; exact Hp|]. right. eapply Permutation_in; [exact Hp2|exact Hy].
Qed.

Lemma locate_ok q m e : history cmp (@NoDup Z) q m -> In e m ->
  exists loc q' m', last_loc (calls q) e = Some loc /\ 0 <= loc < zlen m /\
    priorq_remove cmp q loc = Ok (q', e) /\ Permutation m (e :: m') /\ history cmp (@NoDup Z) q' m'.
Proof.
  intros H He. pose proof (history_inv _ q m H) as I. pose proof (inv_size _ q m I) as E.
  pose proof I as (W & Hh & Hp & Pm & Hl).
  assert (Hn : 0 <= capacity q <= zlen (storage q)) by (destruct W as (? & -> & _); lia).
  apply (Permutation_in e (Permutation_sym Hp)) in He. apply live_in in He; [|assumption].
  destruct He as (loc & Hloc & <-).
  destruct (remove_ok _ q m loc I Hloc) as (q' & E1 & (m' & Hm) & I').
  exists loc, q', m'. split; [apply Hl; [auto|assumption|lia]|]. split; [lia|]. split; [exact E1|]. split; [exact Hm|].
  eapply H_remove; try eassumption.
  eapply NoDup_cons_iff. eapply Permutation_NoDup; eassumption.
Qed.

End Functional.

(** ** Memory safety, whatever the comparator answers *)

Lemma raise_safe cmp value : forall fuel q slot,
  wf q -> 0 <= slot < zlen (storage q) -> (Z.to_nat slot < fuel)%nat ->
  exists q' slot', raise_loop cmp fuel q slot value = Ok (q', slot') /\ same_caps q q' /\ 0 <= slot' <= slot.
Proof.
  induction fuel as [|fuel IH]; intros q slot W Hs Hf; [lia|].
  cbn [raise_loop]. unfold truth. destruct (slot =? 0) eqn:E0; cbn [negb].
  { exists q, slot. split; [reflexivity|]. split; [repeat split|]. lia. }
  assert (Hcap : zlen (storage q) <= 2 ^ 60) by (destruct W as (_ & -> & ?); assumption).
  rewrite u64_small by lia. fold (par slot). rewrite rd_at by plia. cbn [bind].
  destruct (cmp value (at_ (storage q) (par slot)) >=? 0).
  { exists q, slot. split; [reflexivity|]. split; [repeat split|]. lia. }
  rewrite assign_ok by lia. cbn [bind]. set (q1 := Priorq _ _ _ _).
  assert (L1 : zlen (storage q1) = zlen (storage q)) by (cbn; apply put_zlen; lia).
  assert (S1 : same_caps q q1) by (unfold same_caps; rewrite L1; auto).
  destruct (IH q1 (par slot)) as (q' & slot' & R1 & R2 & R3).
  - eapply same_caps_wf; eassumption.
  - plia.
  - plia.
  - exists q', slot'. split; [exact R1|]. split; [|plia].
    unfold same_caps in *. destruct R2 as (-> & -> & ->). cbn. auto.
Qed.

Lemma lower_safe cmp value : forall fuel q slot,
  wf q -> 0 <= slot < zlen (storage q) -> (slot < capacity q -> (Z.to_nat (capacity q - slot) < fuel)%nat) -> (0 < fuel)%nat ->
  exists q', lower_loop cmp fuel q slot value = Ok q' /\ same_caps q q'.
Proof.
  induction fuel as [|fuel IH]; intros q slot W Hs Hf Hf0; [lia|].
  pose proof W as (W1 & W2 & W3).
  cbn [lower_loop]. rewrite (u64_small (slot * 2 + 1)) by lia.
  assert (Stop : exists q', assign q slot value = Ok q' /\ same_caps q q').
  { rewrite assign_ok by lia. eexists. split; [reflexivity|]. unfold same_caps. cbn. rewrite put_zlen by lia. auto. }
  destruct (slot * 2 + 1 >=? capacity q) eqn:El; [exact Stop|].
  rewrite (u64_small (slot * 2 + 1 + 1)) by lia.
  assert (Br : exists b,
    (if slot * 2 + 1 + 1 >=? capacity q then Ok (slot * 2 + 1)
     else x <- rd (storage q) (slot * 2 + 1) ;; y <- rd (storage q) (slot * 2 + 1 + 1) ;;
       Ok (if cmp x y <? 0 then slot * 2 + 1 else slot * 2 + 1 + 1)) = Ok b /\ slot < b < capacity q).
  { destruct (slot * 2 + 1 + 1 >=? capacity q) eqn:Er.
    - eexists. split; [reflexivity|]. lia.
    - rewrite rd_at by lia. cbn [bind]. rewrite rd_at by lia. cbn [bind]. eexists. split; [reflexivity|].
      destruct (_ <? 0); lia. }
  destruct Br as (b & -> & Hb). cbn [bind]. rewrite rd_at by lia. cbn [bind].
  destruct (_ <=? 0); [exact Stop|]. clear Stop.
  rewrite assign_ok by lia. cbn [bind]. set (q1 := Priorq _ _ _ _).
  assert (L1 : zlen (storage q1) = zlen (storage q)) by (cbn; apply put_zlen; lia).
  assert (S1 : same_caps q q1) by (unfold same_caps; rewrite L1; auto).
  destruct (IH q1 b) as (q' & R1 & R2).
  - eapply same_caps_wf; eassumption.
  - lia.
  - change (capacity q1) with (capacity q). lia.
  - lia.
  - exists q'. split; [exact R1|]. unfold same_caps in *. destruct R2 as (-> & -> & ->). cbn. auto.
Qed.

Definition doubled (q : priorq) : Prop := max_capacity q = 0 \/ exists k, 0 <= k /\ max_capacity q = 2 ^ k.

Lemma enqueue_safe cmp junk q v : wf q -> doubled q -> capacity q + 1 < 2 ^ 60 ->
  exists q', priorq_enqueue cmp junk q v = Ok q' /\ wf q' /\ doubled q' /\ capacity q' = capacity q + 1.
Proof.
  intros W D Hr. unfold priorq_enqueue.
  destruct (grow_ok junk q W ltac:(lia)) as (q1 & -> & W1 & C1 & M1 & _ & _ & _ & D1). cbn [bind].
  rewrite C1. pose proof W as (W0 & _). rewrite u64_small by lia.
  set (q2 := Priorq (storage q1) (capacity q + 1) (max_capacity q1) (calls q1)).
  pose proof W1 as (Wa & Wb & Wc).
  assert (W2 : wf q2) by (unfold wf, q2; cbn; lia).
  unfold raise.
  destruct (raise_safe cmp v (S (length (storage q2))) q2 (capacity q)) as (q3 & slot & R1 & R2 & R3).
  - assumption.
  - unfold q2. cbn. lia.
  - unfold q2. cbn [storage]. unfold zlen in *. lia.
  - rewrite R1. cbn [bind]. pose proof R2 as (R2a & R2b & R2c).
    assert (H3 : 0 <= slot < zlen (storage q3)) by (rewrite R2c; unfold q2; cbn; lia).
    rewrite assign_ok by assumption. eexists. split; [reflexivity|].
    split. { unfold wf. cbn. rewrite put_zlen by assumption. rewrite R2a, R2b, R2c. exact W2. }
    unfold doubled. cbn [capacity max_capacity]. rewrite R2a, R2b. cbn. split; [|reflexivity].
    destruct D1 as [->|D1]; [exact D|right; exact D1].
Qed.

Lemma dequeue_safe cmp q : wf q -> doubled q ->
  exists q' x, priorq_dequeue cmp q = Ok (q', x) /\ wf q' /\ doubled q' /\ capacity q' = Z.max 0 (capacity q - 1).
Proof.
  intros W D. pose proof W as (W1 & W2 & W3). unfold priorq_dequeue.
  destruct (capacity q =? 0) eqn:E0.
  { exists q, 0. split; [reflexivity|]. split; [assumption|]. split; [assumption|]. lia. }
  destruct (shrink_wf q W ltac:(lia)) as (Ws & Cs).
  destruct (capacity q =? 1) eqn:E1.
  - rewrite Cs. rewrite rd_at by (cbn; lia). cbn [bind]. eexists _, _. split; [reflexivity|].
    split; [assumption|]. split; [exact D|lia].
  - rewrite rd_at by lia. cbn [bind]. rewrite Cs. rewrite rd_at by (cbn; lia). cbn [bind].
    unfold lower.
    destruct (lower_safe cmp (at_ (storage (shrink q)) (capacity q - 1)) (S (length (storage (shrink q)))) (shrink q) 0)
      as (q' & R1 & R2).
    + assumption.
    + cbn. lia.
    + rewrite Cs. cbn [shrink storage]. unfold zlen in *. lia.
    + lia.
    + rewrite R1. cbn [bind]. exists q', (at_ (storage q) 0). split; [reflexivity|].
      split; [eapply same_caps_wf; eassumption|]. destruct R2 as (Ra & Rb & Rc).
      unfold doubled. rewrite Ra, Rb, Cs. split; [exact D|lia].
Qed.

Lemma pop_safe q : wf q -> doubled q ->
  exists q' x, priorq_pop q = Ok (q', x) /\ wf q' /\ doubled q' /\ capacity q' = Z.max 0 (capacity q - 1).
Proof.
  intros W D. pose proof W as (W1 & W2 & W3). unfold priorq_pop, priorq_empty, priorq_size.
  destruct (capacity q =? 0) eqn:E0.
  { exists q, 0. split; [reflexivity|]. split; [assumption|]. split; [assumption|]. lia. }
  destruct (shrink_wf q W ltac:(lia)) as (Ws & Cs).
  rewrite Cs. rewrite rd_at by (cbn; lia). cbn [bind]. eexists _, _. split; [reflexivity|].
  split; [assumption|]. split; [exact D|lia].
Qed.

Lemma remove_safe cmp q loc : wf q -> doubled q -> 0 <= loc < capacity q ->
  exists q' x, priorq_remove cmp q loc = Ok (q', x) /\ wf q' /\ doubled q' /\ capacity q' = capacity q - 1.
Proof.
  intros W D Hl. pose proof W as (W1 & W2 & W3). unfold priorq_remove.
  destruct (shrink_wf q W ltac:(lia)) as (Ws & Cs).
  rewrite rd_at by lia. cbn [bind]. rewrite Cs. rewrite rd_at by (cbn; lia). cbn [bind].
  set (other := at_ (storage (shrink q)) (capacity q - 1)). unfold raise.
  destruct (raise_safe cmp other (S (length (storage (shrink q)))) (shrink q) loc) as (q2 & slot & R1 & R2 & R3).
  - assumption.
  - cbn. lia.
  - cbn [shrink storage]. unfold zlen in *. lia.
  - rewrite R1. cbn [bind]. unfold lower. pose proof R2 as (Ra & Rb & Rc).
    cbn [shrink storage max_capacity] in Rb, Rc.
    destruct (lower_safe cmp other (S (length (storage q2))) q2 slot) as (q' & T1 & T2).
    + eapply same_caps_wf; eassumption.
    + rewrite Rc. lia.
    + rewrite Ra, Cs. unfold zlen in *. lia.
    + lia.
    + rewrite T1. cbn [bind]. exists q', (at_ (storage q) loc). split; [reflexivity|].
      pose proof T2 as (Ta & Tb & Tc).
      split; [eapply same_caps_wf; [exact T2|]; eapply same_caps_wf; eassumption|].
      unfold doubled. rewrite Ta, Tb, Ra, Rb, Cs. split; [exact D|reflexivity].
Qed.

Lemma any_history_safe cmp q n : any_history cmp q n -> wf q /\ doubled q /\ capacity q = n.
Proof.
  induction 1 as [|q n junk v q' Hi IH Hr E|q n q' x Hi IH E|q n q' x Hi IH E|q n loc q' x Hi IH Hl E].
  - split; [unfold wf; cbn; lia|]. split; [left; reflexivity|reflexivity].
  - destruct IH as (W & D & C). destruct (enqueue_safe cmp junk q v W D ltac:(lia)) as (q2 & E2 & A & B & Cc).
    rewrite E in E2. inversion E2. subst q2. rewrite C in Cc. auto.
  - destruct IH as (W & D & C). destruct (dequeue_safe cmp q W D) as (q2 & x2 & E2 & A & B & Cc).
    rewrite E in E2. inversion E2. subst q2. rewrite C in Cc. auto.
  - destruct IH as (W & D & C). destruct (pop_safe q W D) as (q2 & x2 & E2 & A & B & Cc).
    rewrite E in E2. inversion E2. subst q2. rewrite C in Cc. auto.
  - destruct IH as (W & D & C). destruct (remove_safe cmp q loc W D ltac:(lia)) as (q2 & x2 & E2 & A & B & Cc).
    rewrite E in E2. inversion E2. subst q2. rewrite C in Cc. auto.
Qed.

Lemma safety_ok cmp q n : any_history cmp q n ->
  priorq_size q = n /\ 0 <= n <= max_capacity q /\ zlen (storage q) = max_capacity q /\
  (max_capacity q = 0 \/ exists k, 0 <= k /\ max_capacity q = 2 ^ k) /\
  (forall junk v, n + 1 < 2 ^ 60 -> exists q', priorq_enqueue cmp junk q v = Ok q') /\
  (exists q' x, priorq_dequeue cmp q = Ok (q', x)) /\
  (exists q' x, priorq_pop q = Ok (q', x)) /\
  (exists x, priorq_peek q = Ok x) /\
  (forall loc, 0 <= loc < n -> exists q' x, priorq_remove cmp q loc = Ok (q', x)).
Proof.
  intros H. apply any_history_safe in H. destruct H as (W & D & C). pose proof W as (W1 & W2 & W3).
  split; [exact C|]. split; [lia|]. split; [exact W2|]. split; [exact D|].
  split. { intros junk v Hn. destruct (enqueue_safe cmp junk q v W D ltac:(lia)) as (q' & E & _). eauto. }
  split. { destruct (dequeue_safe cmp q W D) as (q' & x & E & _). eauto. }
  split. { destruct (pop_safe q W D) as (q' & x & E & _). eauto. }
  split. { unfold priorq_peek, priorq_empty, priorq_size. destruct (capacity q =? 0) eqn:E0; [eauto|].
           rewrite rd_at by lia. eauto. }
  intros loc Hl. destruct (remove_safe cmp q loc W D ltac:(lia)) as (q' & x & E & _). eauto.
Qed.
