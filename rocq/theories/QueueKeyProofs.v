(** Proofs about priority queues with elements in memory. *)
From Verif Require Import Base CMem Heap ListModel ListSpec ListProofs OwnModel OwnSpec OwnProofs PriorqModel PriorqSpec PriorqProofs PriorqAnySpec PriorqAny ObjModel ObjBase KeySpec TreeKeySpec TreeKeyProofs QueueKeyModel QueueKeySpec.
From Coq Require Import Sorted.
Open Scope list_scope.
Open Scope Z_scope.
Notation heap := Heap.heap.
Notation inv := PriorqProofs.inv.

Section Queues.
Context {X : Type} (read : list Z -> option X) (place : list Z -> Z).
Context (ask : Z -> Z -> Z -> Z -> M Z) (tell : Z -> Z -> Z -> Z -> M unit) (cmp reloc obj : Z) (C : X -> X -> Z).
Context (P : serving read place ask tell cmp reloc obj C).
Notation key_at := (key_at read).
Notation item := (item read place).
Notation queued := (queued read place ask tell cmp reloc obj).

Lemma item_key h a x loc : item h a x loc -> key_at h a x.
Proof. intros (b & G & R & _). exists b. auto. Qed.
Lemma key_item h a x : key_at h a x -> exists loc, item h a x loc.
Proof. intros (b & G & R). exists (place b), b. auto. Qed.

(** * The queue in memory *)
Section Calls.
Context (q : Z).
Definition queue_at (h : heap) (st : Z) (x : priorq) : Prop :=
  get h q = Some (CSlots [cmp; reloc; obj; st; capacity x; max_capacity x]) /\
  (st = 0 /\ storage x = [] \/ get h st = Some (CSlots (storage x)) /\ q <> st).
Definition mine (st y : Z) : Prop := y = q \/ st <> 0 /\ y = st.

Lemma mine_own h st x y : queue_at h st x -> (own h q y <-> mine st y).
Proof.
  intros (G & _). unfold own, mine. split.
  - intros [->|(N & c & r & o & n & m & G')]; [left; reflexivity|]. rewrite G in G'. injection G' as _ _ _ -> _ _. right; auto.
  - intros [->|(N & ->)]; [left; reflexivity|right]. split; [exact N|]. repeat eexists. exact G.
Qed.

Lemma inb_nil (i : Z) : inb (@nil Z) i = false.
Proof. unfold inb. change (zlen (@nil Z)) with 0. lia. Qed.
Lemma rd_nil (i v : Z) : rd (@nil Z) i <> Ok v.
Proof. unfold rd. rewrite inb_nil. discriminate. Qed.
Lemma q_field {B} (g : Z -> M B) i v h st x : queue_at h st x -> rd [cmp; reloc; obj; st; capacity x; max_capacity x] i = Ok v ->
  bnd (field q i) g h = g v h.
Proof. intros (G & _) R. exact (step_field g q i _ v h G R). Qed.
Lemma q_stored {B} (g : Z -> M B) h st x slot v : queue_at h st x -> rd (storage x) slot = Ok v -> bnd (m_stored q slot) g h = g v h.
Proof.
  intros A R. unfold m_stored. rewrite bnd_assoc. rewrite (q_field _ QF_storage st _ _ _ A) by reflexivity. destruct A as (_ & [(_ & E)|(G & _)]).
  - rewrite E in R. exfalso. exact (rd_nil _ _ R).
  - apply (step_field g st slot _ v h G R).
Qed.
Lemma run_ret {A} (m : M A) h : bnd m ret h = m h.
Proof. unfold bnd. destruct (m h) as [[]| | |]; reflexivity. Qed.
Lemma q_rounds {B} (g : nat -> M B) h st x : queue_at h st x -> bnd (m_rounds q) g h = g (S (length (storage x))) h.
Proof.
  intros A. unfold m_rounds. rewrite bnd_assoc. rewrite (q_field _ QF_storage st _ _ _ A) by reflexivity. destruct A as (_ & [(-> & ->)|(G & _)]).
  - reflexivity.
  - rewrite (proj2 (Z.eqb_neq st 0)) by (eapply get_nonnull; exact G). rewrite bnd_assoc. rewrite (step_ld_slots _ _ _ _ G). reflexivity.
Qed.

(** * One operation *)
(** The elements involved, and a comparison that agrees with what they say. *)
Context (E : list (Z * X)) (F : Z -> Z -> Z).
Context (HF : forall a x b y, In (a, x) E -> In (b, y) E -> F a b = C x y).
Definition known (a : Z) : Prop := In a (map fst E).

(** Between the calls: [calls x] are the calls of reloc so far. *)
Record sim (h : heap) (st : Z) (x : priorq) : Prop := {
  sim_queue : queue_at h st x;
  sim_items : forall a y, In (a, y) E -> ~ mine st a /\
    exists loc, item h a y loc /\ forall l, last_loc (calls x) a = Some l -> loc = l
}.
(** Nothing else changes. *)
Definition beside (st st' : Z) (h h' : heap) : Prop :=
  (forall y, ~ mine st y -> ~ mine st' y -> (known y -> get h y = None) -> get h' y = get h y) /\
  (forall y, ~ mine st y -> get h y <> None -> ~ mine st' y /\ get h' y <> None) /\
  (forall y, mine st y -> ~ mine st' y -> get h' y = None).
Lemma beside_refl st h : beside st st h h.
Proof. split; [auto|]. split; [auto|]. intros y M N. contradiction. Qed.
Lemma mine_dec st y : mine st y \/ ~ mine st y.
Proof. clear HF F. unfold mine. destruct (Z.eq_dec y q); [auto|]. destruct (Z.eq_dec st 0); [right; lia|]. destruct (Z.eq_dec y st); [left; auto|right; lia]. Qed.
Lemma beside_trans st1 st2 st3 h1 h2 h3 : beside st1 st2 h1 h2 -> beside st2 st3 h2 h3 -> beside st1 st3 h1 h3.
Proof.
  intros (A1 & B1 & D1) (A2 & B2 & D2). split; [|split].
  - intros y M N K. destruct (mine_dec st2 y) as [M2|M2].
    + rewrite (D2 y M2 N). destruct (get h1 y) eqn:G; [|reflexivity]. destruct (B1 y M) as [M2' _]; [congruence|contradiction].
    + rewrite <- (A1 y M M2 K). apply A2; [exact M2|exact N|]. intros Ky. rewrite (A1 y M M2 K). exact (K Ky).
  - intros y M G. destruct (B1 y M G) as [M2 G2]. apply B2; assumption.
  - intros y M N. destruct (mine_dec st2 y) as [M2|M2]; [exact (D2 y M2 N)|]. pose proof (D1 y M M2) as G2. rewrite <- G2. apply A2; auto.
Qed.

Lemma known_in a : known a -> exists y, In (a, y) E.
Proof. intros K. apply in_map_iff in K. destruct K as ([b y] & <- & I). exists y. exact I. Qed.

Lemma q_compare {B} (g : Z -> M B) h st x a b : sim h st x -> known a -> known b -> bnd (m_compare ask q a b obj) g h = g (F a b) h.
Proof.
  intros S Ka Kb. apply known_in in Ka. apply known_in in Kb. destruct Ka as (y & Ia), Kb as (z & Ib).
  unfold m_compare. rewrite bnd_assoc, (q_field _ QF_cmp cmp _ _ _ (sim_queue _ _ _ S)) by reflexivity.
  destruct (sim_items _ _ _ S a y Ia) as (_ & l1 & It1 & _). destruct (sim_items _ _ _ S b z Ib) as (_ & l2 & It2 & _).
  apply item_key in It1. apply item_key in It2. rewrite (HF a y b z Ia Ib).
  exact (bnd_Ok _ _ _ _ _ (asks_order _ _ _ _ _ (s_compares _ _ _ _ _ _ _ _ P) h a y b z It1 It2)).
Qed.

Lemma assign_sim h st x x' slot v : sim h st x -> known v -> assign x slot v = Ok x' ->
  exists h', m_assign tell q slot v h = Ok (tt, h') /\ sim h' st x' /\ beside st st h h'.
Proof.
  intros S K H. unfold assign in H. destruct (wr (storage x) slot v) as [s| | |] eqn:W; cbn [bind] in H; try discriminate. injection H as <-.
  pose proof (sim_queue _ _ _ S) as A. unfold m_assign. rewrite (q_field _ QF_storage st _ _ _ A) by reflexivity. destruct A as (G & [(_ & E0)|(G1 & N)]).
  { rewrite E0 in W. exfalso. unfold wr in W. rewrite inb_nil in W. discriminate. }
  pose proof (get_nonnull _ _ _ G1) as Ns. rewrite (step_set_field _ st _ _ _ _ h G1 W). set (h1 := put_cell h st (CSlots s)).
  assert (Gh1 : forall y, get h1 y = if y =? st then Some (CSlots s) else get h y) by (intros y; unfold h1; apply get_put; exact Ns).
  assert (A1 : queue_at h1 st (Priorq s (capacity x) (max_capacity x) ((v, slot) :: calls x))).
  { split; [rewrite Gh1; destruct (Z.eqb_spec q st); [congruence|exact G]|]. right. split; [rewrite Gh1, Z.eqb_refl; reflexivity|exact N]. }
  rewrite (q_field _ QF_reloc reloc _ _ _ A1) by reflexivity. rewrite (q_field _ QF_obj obj _ _ _ A1) by reflexivity.
  destruct (s_code _ _ _ _ _ _ _ _ P) as [N0 N1]. rewrite (proj2 (Z.eqb_neq _ _) N1).
  destruct (known_in v K) as (yv & Iv). destruct (sim_items _ _ _ S v yv Iv) as (Mv & lv & Itv & _).
  assert (Nv : v <> q /\ v <> st) by (unfold mine in Mv; split; intros ->; apply Mv; [left|right]; auto).
  assert (Kv : key_at h1 v yv).
  { apply item_key in Itv. destruct Itv as (b & Gb & Rb). exists b. split; [rewrite Gh1; destruct (Z.eqb_spec v st); [lia|exact Gb]|exact Rb]. }
  destruct (s_notes _ _ _ _ _ _ _ _ P h1 v yv slot Kv) as (h2 & E2 & It2 & O2). exists h2. split; [exact E2|].
  assert (Gh2 : forall y, y <> v -> y <> st -> get h2 y = get h y).
  { intros y Y1 Y2. rewrite (O2 y Y1), Gh1. destruct (Z.eqb_spec y st); [contradiction|reflexivity]. }
  split.
  - constructor.
    + destruct A1 as (Q1 & [(Z0 & _)|(Q2 & _)]); [congruence|]. split; [rewrite O2 by lia; exact Q1|]. right. split; [rewrite O2 by lia; exact Q2|exact N].
    + intros a y Ia. destruct (sim_items _ _ _ S a y Ia) as (Ma & la & Ita & La). split; [exact Ma|]. cbn [calls last_loc].
      destruct (Z.eqb_spec v a) as [->|Na].
      * (* the element itself *)
        exists slot. split; [|intros l E1; congruence].
        assert (yv = y); [|subst; exact It2]. destruct Kv as (b & Gb & Rb). destruct Ita as (b' & Gb' & Rb' & _).
        rewrite Gh1 in Gb. destruct (Z.eqb_spec a st); [lia|]. rewrite Gb' in Gb. injection Gb as ->. congruence.
      * exists la. split; [|exact La]. destruct Ita as (b & Gb & Rb). exists b. split; [|exact Rb]. rewrite Gh2; [exact Gb|congruence|].
        intros ->. apply Ma. right; auto.
  - split; [|split].
    + intros y My _ Ky. apply Gh2; [|intros ->; apply My; right; auto]. intros ->. specialize (Ky K). destruct Itv as (b & Gb & _). congruence.
    + intros y My Gy. split; [exact My|]. destruct (Z.eq_dec y v) as [->|Yv]; [destruct It2 as (b & Gb & _); congruence|].
      rewrite Gh2; [exact Gy|exact Yv|]. intros ->. apply My. right; auto.
    + intros y M N'. contradiction.
Qed.

(** The first [n] slots hold elements. *)
Definition good (n : Z) (x : priorq) : Prop := forall i y, 0 <= i < n -> rd (storage x) i = Ok y -> known y.
Lemma assign_good n x x' slot v : good n x -> known v -> assign x slot v = Ok x' -> good n x' /\ capacity x' = capacity x.
Proof.
  intros G K H. unfold assign in H. destruct (wr (storage x) slot v) as [s| | |] eqn:W; cbn [bind] in H; try discriminate. injection H as <-.
  split; [|reflexivity]. intros i y Hi R. cbn [storage] in R. assert (B : 0 <= slot < zlen (storage x)).
  { unfold wr in W. destruct (inb (storage x) slot) eqn:I; [|discriminate]. unfold inb in I. lia. }
  rewrite wr_put in W by exact B. injection W as <-. assert (B' : 0 <= i < zlen (storage x)).
  { unfold rd in R. destruct (inb (put (storage x) slot v) i) eqn:I; [|discriminate]. unfold inb in I. rewrite put_zlen in I by exact B. lia. }
  rewrite rd_at in R by (rewrite put_zlen by exact B; exact B'). injection R as <-. destruct (Z.eq_dec slot i) as [->|N].
  - rewrite at_put_eq by exact B. exact K.
  - rewrite at_put_neq by lia. apply (G i); [exact Hi|]. apply rd_at. exact B'.
Qed.

Lemma raise_sim st n v : n < 2 ^ 63 -> known v -> forall fuel x x' slot slot' h, sim h st x -> good n x -> 0 <= slot <= n ->
  raise_loop F fuel x slot v = Ok (x', slot') ->
  exists h', m_raise_loop ask tell fuel q slot v obj h = Ok (slot', h') /\ sim h' st x' /\ good n x' /\ capacity x' = capacity x /\ beside st st h h'.
Proof.
  intros Hn K. induction fuel as [|fuel IH]; intros x x' slot slot' h S G Hs H; cbn [raise_loop] in H; [discriminate|]. cbn [m_raise_loop].
  destruct (truth slot) eqn:T; [|injection H as <- <-; exists h; split; [reflexivity|]; split; [exact S|]; split; [exact G|]; split; [reflexivity|apply beside_refl]].
  assert (Hp : 0 <= u64 (slot - 1) / 2 < n).
  { unfold truth in T. unfold u64. rewrite Z.mod_small by lia. split; [apply Z.div_pos; lia|]. apply Z.div_lt_upper_bound; lia. }
  destruct (rd (storage x) (u64 (slot - 1) / 2)) as [y| | |] eqn:R; cbn [bind] in H; try discriminate.
  pose proof (G _ _ Hp R) as Ky. pose proof (sim_queue _ _ _ S) as A.
  rewrite (q_stored _ _ _ _ _ _ A R). rewrite (q_compare _ _ _ _ _ _ S K Ky). destruct (F v y >=? 0).
  - injection H as <- <-. exists h. split; [reflexivity|]. split; [exact S|]. split; [exact G|]. split; [reflexivity|apply beside_refl].
  - rewrite (q_stored _ _ _ _ _ _ A R). destruct (assign x slot y) as [x1| | |] eqn:As; cbn [bind] in H; try discriminate.
    destruct (assign_sim h st x x1 slot y S Ky As) as (h1 & E1 & S1 & B1). rewrite (bnd_Ok _ _ _ _ _ E1).
    destruct (assign_good n x x1 slot y G Ky As) as [G1 C1].
    destruct (IH x1 x' (u64 (slot - 1) / 2) slot' h1 S1 G1 (conj (proj1 Hp) (Z.lt_le_incl _ _ (proj2 Hp))) H) as (h2 & E2 & S2 & G2 & C2 & B2).
    exists h2. split; [exact E2|]. split; [exact S2|]. split; [exact G2|]. split; [congruence|]. eapply beside_trans; eauto.
Qed.
Lemma lower_sim st v : known v -> forall fuel x x' slot h, sim h st x -> good (capacity x) x ->
  lower_loop F fuel x slot v = Ok x' ->
  exists h', m_lower_loop ask tell fuel q slot v obj h = Ok (tt, h') /\ sim h' st x' /\ beside st st h h'.
Proof.
  intros K. induction fuel as [|fuel IH]; intros x x' slot h S G H; cbn [lower_loop] in H; [discriminate|]. cbn [m_lower_loop].
  pose proof (sim_queue _ _ _ S) as A. rewrite (q_field _ QF_capacity (capacity x) _ _ _ A) by reflexivity.
  destruct (u64 (slot * 2 + 1) >=? capacity x) eqn:L; [exact (assign_sim h st x x' slot v S K H)|].
  set (left := u64 (slot * 2 + 1)) in *. set (right := u64 (left + 1)) in *.
  assert (L0 : 0 <= left) by (unfold left, u64; apply Z.mod_pos_bound; lia).
  assert (R0 : 0 <= right) by (unfold right, u64; apply Z.mod_pos_bound; lia).
  rewrite (q_field _ QF_capacity (capacity x) _ _ _ A) by reflexivity.
  destruct (if right >=? capacity x then Ok left else x0 <- rd (storage x) left ;; y <- rd (storage x) right ;; Ok (if F x0 y <? 0 then left else right))
    as [br| | |] eqn:EB; cbn [bind] in H; try discriminate.
  assert (HB : 0 <= br < capacity x /\ (if right >=? capacity x then ret left
               else let! x0 := m_stored q left in let! y := m_stored q right in let! c := m_compare ask q x0 y obj in ret (if c <? 0 then left else right)) h = Ok (br, h)).
  { destruct (right >=? capacity x) eqn:RR; [injection EB as <-; split; [lia|reflexivity]|].
    destruct (rd (storage x) left) as [a| | |] eqn:R1; cbn [bind] in EB; try discriminate.
    destruct (rd (storage x) right) as [b| | |] eqn:R2; cbn [bind] in EB; try discriminate. injection EB as <-.
    split; [destruct (F a b <? 0); lia|].
    rewrite (q_stored _ _ _ _ _ _ A R1). rewrite (q_stored _ _ _ _ _ _ A R2).
    rewrite (q_compare _ _ _ _ _ _ S); [reflexivity|apply (G left); [lia|exact R1]|apply (G right); [lia|exact R2]]. }
  destruct HB as [Hbr HB]. rewrite (bnd_Ok _ _ _ _ _ HB). clear HB EB.
  destruct (rd (storage x) br) as [y| | |] eqn:R; cbn [bind] in H; try discriminate. pose proof (G br y Hbr R) as Ky.
  rewrite (q_stored _ _ _ _ _ _ A R). rewrite (q_compare _ _ _ _ _ _ S K Ky). destruct (F v y <=? 0); [exact (assign_sim h st x x' slot v S K H)|].
  rewrite (q_stored _ _ _ _ _ _ A R). destruct (assign x slot y) as [x1| | |] eqn:As; cbn [bind] in H; try discriminate.
  destruct (assign_sim h st x x1 slot y S Ky As) as (h1 & E1 & S1 & B1). rewrite (bnd_Ok _ _ _ _ _ E1).
  destruct (assign_good _ x x1 slot y G Ky As) as [G1 C1]. rewrite <- C1 in G1.
  destruct (IH x1 x' br h1 S1 G1 H) as (h2 & E2 & S2 & B2). exists h2. split; [exact E2|]. split; [exact S2|]. eapply beside_trans; eauto.
Qed.

(** Writes to the struct and a new storage. *)
Lemma struct_sim h st x c m : sim h st x -> let h' := put_cell h q (CSlots [cmp; reloc; obj; st; c; m]) in
  sim h' st (Priorq (storage x) c m (calls x)) /\ beside st st h h'.
Proof.
  intros S h'. pose proof (sim_queue _ _ _ S) as (G & ST). pose proof (get_nonnull _ _ _ G) as Nq.
  assert (Gh : forall y, get h' y = if y =? q then Some (CSlots [cmp; reloc; obj; st; c; m]) else get h y) by (intros y; unfold h'; apply get_put; exact Nq).
  split.
  - constructor.
    + split; [rewrite Gh, Z.eqb_refl; reflexivity|]. destruct ST as [ST|(ST & N)]; [left; exact ST|right]. split; [|exact N].
      rewrite Gh. destruct (Z.eqb_spec st q); [congruence|exact ST].
    + intros a y Ia. destruct (sim_items _ _ _ S a y Ia) as (Ma & la & (b & Gb & Rb) & La). split; [exact Ma|]. exists la. split; [|exact La].
      exists b. split; [|exact Rb]. rewrite Gh. destruct (Z.eqb_spec a q) as [->|_]; [exfalso; apply Ma; left; reflexivity|exact Gb].
  - split; [|split].
    + intros y My _ _. rewrite Gh. destruct (Z.eqb_spec y q) as [->|_]; [exfalso; apply My; left; reflexivity|reflexivity].
    + intros y My Gy. split; [exact My|]. rewrite Gh. destruct (Z.eqb_spec y q); [discriminate|exact Gy].
    + intros y M N. contradiction.
Qed.
Lemma max_sim h st x m : sim h st x -> exists h', set_field q QF_max m h = Ok (tt, h') /\
  sim h' st (Priorq (storage x) (capacity x) m (calls x)) /\ beside st st h h'.
Proof.
  intros S. eexists. split; [apply (set_field_ok q QF_max _ [cmp; reloc; obj; st; capacity x; m] m h (proj1 (sim_queue _ _ _ S))); reflexivity|].
  apply (struct_sim h st x); exact S.
Qed.
Lemma capacity_sim h st x c : sim h st x -> exists h', set_field q QF_capacity c h = Ok (tt, h') /\
  sim h' st (Priorq (storage x) c (max_capacity x) (calls x)) /\ beside st st h h'.
Proof.
  intros S. eexists. split; [apply (set_field_ok q QF_capacity _ [cmp; reloc; obj; st; c; max_capacity x] c h (proj1 (sim_queue _ _ _ S))); reflexivity|].
  apply (struct_sim h st x); exact S.
Qed.
Lemma last_sim {B} (g : Z -> M B) h st x v : sim h st x -> rd (storage x) (capacity (shrink x)) = Ok v ->
  exists h', bnd (m_last q) g h = g v h' /\ sim h' st (shrink x) /\ beside st st h h'.
Proof.
  intros S R. unfold m_last. rewrite bnd_assoc, (q_field _ QF_capacity (capacity x) _ _ _ (sim_queue _ _ _ S)) by reflexivity.
  destruct (capacity_sim h st x (u64 (capacity x - 1)) S) as (h1 & E1 & S1 & B1). exists h1. rewrite bnd_assoc, (bnd_Ok _ _ _ _ _ E1).
  rewrite bnd_assoc, (q_field _ QF_capacity (u64 (capacity x - 1)) _ _ _ (sim_queue _ _ _ S1)) by reflexivity. split; [|split; [exact S1|exact B1]].
  exact (q_stored g h1 st _ _ v (sim_queue _ _ _ S1) R).
Qed.
Lemma grow_sim junk h st x n : sim h st x -> exists st' h',
  (let! s := h_realloc junk st n in set_field q QF_storage s) h = Ok (tt, h') /\
  sim h' st' (Priorq (realloc_slots junk (storage x) n) (capacity x) (max_capacity x) (calls x)) /\ beside st st' h h'.
Proof.
  intros S. pose proof (sim_queue _ _ _ S) as (G & ST). pose proof (get_nonnull _ _ _ G) as Nq. unfold h_realloc.
  assert (FR : exists h1, (forall c, (if st =? 0 then alloc (CSlots (realloc_slots junk [] n)) else
      let! b := ld_slots st in do! free st in alloc (CSlots (realloc_slots junk b n))) h = c <-> alloc (CSlots (realloc_slots junk (storage x) n)) h1 = c) /\
      (forall y, ~ (st <> 0 /\ y = st) -> get h1 y = get h y) /\ (st <> 0 -> get h1 st = None)).
  { destruct ST as [(-> & ->)|(ST & N)].
    - exists h. split; [intros c; reflexivity|]. split; [auto|contradiction].
    - pose proof (get_nonnull _ _ _ ST) as Ns. exists (drop_cell h st). split.
      + intros c. rewrite (proj2 (Z.eqb_neq st 0)) by exact Ns. rewrite (step_ld_slots _ _ _ _ ST). rewrite (step_free _ _ _ _ ST). reflexivity.
      + split; [|intros _; rewrite get_drop, Z.eqb_refl; reflexivity].
        intros y Y. rewrite get_drop. destruct (Z.eqb_spec y st); [subst; exfalso; apply Y; auto|reflexivity]. }
  destruct FR as (h1 & F1 & F2 & F3).
  destruct (alloc_spec (CSlots (realloc_slots junk (storage x) n)) h1) as (s & h2 & E0 & Ns & Fs & G2).
  apply F1 in E0. rewrite (bnd_Ok _ _ _ _ _ E0).
  assert (Nqst : ~ (st <> 0 /\ q = st)) by (intros [Z0 ->]; destruct ST as [(Z1 & _)|(_ & N)]; congruence).
  assert (Gq1 : get h1 q = Some (CSlots [cmp; reloc; obj; st; capacity x; max_capacity x])) by (rewrite F2 by exact Nqst; exact G).
  assert (Nqs : q <> s) by congruence.
  assert (Gq2 : get h2 q = Some (CSlots [cmp; reloc; obj; st; capacity x; max_capacity x])).
  { rewrite G2. destruct (Z.eqb_spec q s); [congruence|exact Gq1]. }
  set (h3 := put_cell h2 q (CSlots [cmp; reloc; obj; s; capacity x; max_capacity x])). exists s, h3.
  split; [apply (set_field_ok q QF_storage _ [cmp; reloc; obj; s; capacity x; max_capacity x] s h2 Gq2); reflexivity|].
  assert (Gh : forall y, ~ mine st y -> get h y <> None -> get h3 y = get h y /\ ~ mine s y).
  { intros y My Gy. assert (Y1 : y <> q) by (intros ->; apply My; left; reflexivity).
    assert (Gy1 : get h1 y = get h y) by (apply F2; intros Y; apply My; right; exact Y).
    assert (Y2 : y <> s) by congruence. split.
    - unfold h3. rewrite get_put by exact Nq. destruct (Z.eqb_spec y q); [contradiction|]. rewrite G2. destruct (Z.eqb_spec y s); [contradiction|exact Gy1].
    - intros [Z0|(_ & Z0)]; contradiction. }
  split.
  - constructor.
    + split; [unfold h3; rewrite get_put, Z.eqb_refl by exact Nq; reflexivity|]. right. split; [|exact Nqs].
      unfold h3. rewrite get_put by exact Nq. destruct (Z.eqb_spec s q); [congruence|]. rewrite G2, Z.eqb_refl. reflexivity.
    + intros a y Ia. destruct (sim_items _ _ _ S a y Ia) as (Ma & la & (b & Gb & Rb) & La).
      destruct (Gh a Ma) as [Ga Ma']; [congruence|]. split; [exact Ma'|]. exists la. split; [|exact La]. exists b. split; [congruence|exact Rb].
  - split; [|split].
    + intros y My Ny _. assert (Y1 : y <> q) by (intros ->; apply My; left; reflexivity). assert (Y2 : y <> s) by (intros ->; apply Ny; right; auto).
      unfold h3. rewrite get_put by exact Nq. destruct (Z.eqb_spec y q); [contradiction|]. rewrite G2. destruct (Z.eqb_spec y s); [contradiction|].
      apply F2. intros Y. apply My. right. exact Y.
    + intros y My Gy. destruct (Gh y My Gy) as [Gy' My']. split; [exact My'|congruence].
    + intros y My Ny. assert (Y1 : y <> q) by (intros ->; apply Ny; left; reflexivity). assert (Y2 : y <> s) by (intros ->; apply Ny; right; auto).
      destruct My as [Z0|(Z0 & ->)]; [contradiction|]. unfold h3. rewrite get_put by exact Nq. destruct (Z.eqb_spec st q); [contradiction|]. rewrite G2.
      destruct (Z.eqb_spec st s); [contradiction|]. exact (F3 Z0).
Qed.

Lemma raise_whole st n x x' slot slot' v h : n < 2 ^ 63 -> known v -> sim h st x -> good n x -> 0 <= slot <= n -> raise F x slot v = Ok (x', slot') ->
  exists h', m_raise ask tell q slot v h = Ok (slot', h') /\ sim h' st x' /\ good n x' /\ capacity x' = capacity x /\ beside st st h h'.
Proof.
  intros Hn K S G Hs H. unfold m_raise. rewrite (q_field _ QF_obj obj _ _ _ (sim_queue _ _ _ S)) by reflexivity. rewrite (q_rounds _ _ _ _ (sim_queue _ _ _ S)).
  exact (raise_sim st n v Hn K _ _ _ _ _ _ S G Hs H).
Qed.
Lemma lower_whole st x x' slot v h : known v -> sim h st x -> good (capacity x) x -> lower F x slot v = Ok x' ->
  exists h', m_lower ask tell q slot v h = Ok (tt, h') /\ sim h' st x' /\ beside st st h h'.
Proof.
  intros K S G H. unfold m_lower. rewrite (q_field _ QF_obj obj _ _ _ (sim_queue _ _ _ S)) by reflexivity. rewrite (q_rounds _ _ _ _ (sim_queue _ _ _ S)).
  exact (lower_sim st v K _ _ _ _ _ S G H).
Qed.
End Calls.

(** * Between the operations *)

Definition fn (h : heap) : Z -> Z -> Z := fun a b => fn_at read C h cmp a b obj.
Lemma fn_comparator h : comparator (fn h).
Proof. destruct (fn_preorder read ask cmp obj C (s_compares _ _ _ _ _ _ _ _ P) h) as [A B]. split; [exact A|exact B]. Qed.
Lemma fn_says h a x b y : key_at h a x -> key_at h b y -> fn h a b = C x y.
Proof. intros A B. exact (cmp_keys read C h a x b y cmp obj A B). Qed.

Definition qinv (h : heap) (q : Z) (m : list (Z * X)) : Prop :=
  exists st x, sim q m h st x /\ inv (fn h) (@NoDup Z) x (map fst m).

Lemma sim_sub q E E' h st x : sim q E h st x -> (forall a, In a E' -> In a E) -> sim q E' h st x.
Proof. intros [A B] I. constructor; [exact A|]. intros a y Ia. apply B. apply I. exact Ia. Qed.
Lemma sim_key q E h st x a y : sim q E h st x -> In (a, y) E -> key_at h a y.
Proof. intros S I. destruct (sim_items _ _ _ _ _ S a y I) as (_ & l & It & _). exact (item_key _ _ _ _ It). Qed.

(** The comparison at [h] is right for elements that say the same at [h'] as at [h]. *)
Lemma finish q E F h' st x m : (forall a x b y, In (a, x) E -> In (b, y) E -> F a b = C x y) -> sim q E h' st x -> (forall a, In a m -> In a E) ->
  inv F (@NoDup Z) x (map fst m) -> qinv h' q m.
Proof.
  intros HF S I V. exists st, x. split; [exact (sim_sub _ _ _ _ _ _ S I)|]. eapply change_inv; [exact V|]. intros a b Ha Hb.
  apply in_map_iff in Ha. apply in_map_iff in Hb. destruct Ha as ([a0 y] & <- & Ha), Hb as ([b0 z] & <- & Hb). cbn [fst].
  rewrite (HF a0 y b0 z (I _ Ha) (I _ Hb)). apply fn_says; eapply sim_key; eauto.
Qed.
Lemma inv_good F E m x n : inv F (@NoDup Z) x (map fst m) -> (forall a, In a m -> In a E) -> n <= capacity x -> good E n x.
Proof.
  intros (W & _ & Pm & _) I Hn i y Hi R. destruct W as (W1 & W2 & _).
  rewrite rd_at in R by lia. injection R as <-. unfold known.
  assert (Hy : In (at_ (storage x) i) (live (capacity x) (storage x))) by (apply live_in; [lia|exists i; split; [lia|reflexivity]]).
  apply (Permutation_in _ Pm) in Hy. apply in_map_iff in Hy. destruct Hy as (a & E0 & Ha). rewrite <- E0. apply in_map. apply I. exact Ha.
Qed.
Lemma beside_same q E h h' st st' x x' : queue_at q h st x -> queue_at q h' st' x' -> sim q E h' st' x' -> beside q E st st' h h' -> same_beside read q E h h'.
Proof.
  intros A A' S (B1 & B2 & B3). assert (O : forall y, own h q y <-> mine q st y) by (intros y; exact (mine_own q h st x y A)).
  assert (O' : forall y, own h' q y <-> mine q st' y) by (intros y; exact (mine_own q h' st' x' y A')). split; [|split; [|split]].
  - intros y Oy Oy' K. rewrite O in Oy. rewrite O' in Oy'. apply B1; [exact Oy|exact Oy'|]. intros Ky. contradiction.
  - intros y Oy G. rewrite O in Oy. rewrite O'. exact (proj1 (B2 y Oy G)).
  - intros y Oy Oy'. rewrite O in Oy. rewrite O' in Oy'. exact (B3 y Oy Oy').
  - intros a y Ia. eapply sim_key; eauto.
Qed.

Lemma make_qinv junk h : exists q h', m_make_priority_queue_2 junk cmp reloc obj h = Ok (q, h') /\ qinv h' q [] /\
  (forall y, get h y <> None -> ~ own h' q y) /\ (forall y, ~ own h' q y -> get h' y = get h y).
Proof.
  unfold m_make_priority_queue_2. destruct (s_code _ _ _ _ _ _ _ _ P) as [N0 _]. replace (truth reloc) with true by (unfold truth; lia).
  destruct (alloc_spec (CSlots (fresh_block junk 6)) h) as (q & h1 & E1 & Nq & F1 & G1). rewrite (bnd_Ok _ _ _ _ _ E1).
  assert (Gq : get h1 q = Some (CSlots (fresh_block junk 6))) by (rewrite G1, Z.eqb_refl; reflexivity).
  unfold fresh_block in Gq. cbn in Gq.
  erewrite step_set_field by (try exact Gq; reflexivity).
  set (p := fun h c => put_cell h q (CSlots c)).
  assert (GP : forall h c, get (put_cell h q (CSlots c)) q = Some (CSlots c)) by (intros h0 c; rewrite get_put, Z.eqb_refl by exact Nq; reflexivity).
  do 5 (erewrite step_set_field by (try apply GP; reflexivity)).
  eexists q, _. split; [reflexivity|].
  assert (Gh : forall h0 c y, y <> q -> get (put_cell h0 q (CSlots c)) y = get h0 y).
  { intros h0 c y Y. rewrite get_put by exact Nq. destruct (Z.eqb_spec y q); [contradiction|reflexivity]. }
  split.
  - exists 0, make_priority_queue. split; [constructor|].
    + split; [rewrite GP; reflexivity|left; split; reflexivity].
    + intros a y [].
    + split; [unfold wf; cbn; lia|]. split; [intros i Hi; cbn in Hi; lia|]. split; [constructor|]. split; [constructor|]. intros _ i Hi. cbn in Hi. lia.
  - split.
    + intros y Hy [Z0|(Z0 & c & r & o & n & m & Gc)]; [congruence|]. rewrite GP in Gc. injection Gc as _ _ _ Gc _ _. congruence.
    + intros y Oy. assert (Y : y <> q) by (intros ->; apply Oy; left; reflexivity). rewrite !Gh by exact Y. rewrite G1. destruct (Z.eqb_spec y q); [contradiction|reflexivity].
Qed.

(** ** Enqueue *)
Definition forget (a : Z) (x : priorq) : priorq := Priorq (storage x) (capacity x) (max_capacity x) (filter (fun p => negb (fst p =? a)) (calls x)).
Lemma forget_other a l b : a <> b -> last_loc (filter (fun p => negb (fst p =? a)) l) b = last_loc l b.
Proof.
  intros N. induction l as [|[v loc] l IH]; [reflexivity|]. cbn [filter fst last_loc]. destruct (Z.eqb_spec v a) as [->|Nv]; cbn [negb].
  - destruct (Z.eqb_spec a b); [contradiction|exact IH].
  - cbn [last_loc]. destruct (v =? b); [reflexivity|exact IH].
Qed.
Lemma forget_self a l : last_loc (filter (fun p => negb (fst p =? a)) l) a = None.
Proof.
  induction l as [|[v loc] l IH]; [reflexivity|]. cbn [filter fst]. destruct (Z.eqb_spec v a) as [->|Nv]; cbn [negb]; [exact IH|].
  cbn [last_loc]. destruct (Z.eqb_spec v a); [contradiction|exact IH].
Qed.

Lemma enqueue_qinv junk h q m a c : qinv h q m -> key_at h a c -> ~ own h q a -> ~ In a (map fst m) -> space m ->
  exists h', m_priorq_enqueue ask tell junk q a h = Ok (tt, h') /\ qinv h' q ((a, c) :: m) /\ same_beside read q ((a, c) :: m) h h'.
Proof.
  intros (st & x0 & S0 & V0) K O N Hm. set (E := (a, c) :: m). set (F := fn h).
  assert (HF : forall a x b y, In (a, x) E -> In (b, y) E -> F a b = C x y).
  { assert (KE : forall a x, In (a, x) E -> key_at h a x) by (intros b y [E0|I]; [injection E0 as <- <-; exact K|eapply sim_key; eauto]).
    intros a1 x1 b1 y1 Ia Ib. apply fn_says; apply KE; assumption. }
  set (x := forget a x0).
  assert (S : sim q E h st x).
  { constructor; [exact (sim_queue _ _ _ _ _ S0)|]. intros b y [E0|I].
    - injection E0 as <- <-. split; [intros M; apply O; apply (mine_own q h st x0 a (sim_queue _ _ _ _ _ S0)); exact M|].
      destruct (key_item _ _ _ K) as (loc & It). exists loc. split; [exact It|]. intros l L. cbn [x forget calls] in L. rewrite forget_self in L. discriminate.
    - destruct (sim_items _ _ _ _ _ S0 b y I) as (M & loc & It & L). split; [exact M|]. exists loc. split; [exact It|]. intros l L'.
      cbn [x forget calls] in L'. rewrite forget_other in L'; [exact (L l L')|]. intros ->. apply N. exact (in_map fst _ _ I). }
  assert (V : inv F (@NoDup Z) x (map fst m)).
  { destruct V0 as (W & Hh & Pm & ND & L). split; [exact W|]. split; [exact Hh|]. split; [exact Pm|]. split; [exact ND|]. intros D i Hi H1.
    cbn [x forget calls storage]. cbn [x forget capacity] in Hi. rewrite forget_other; [exact (L D i Hi H1)|]. intros E0. apply N. rewrite E0. apply (Permutation_in _ Pm). apply live_in; [|exists i; auto].
    destruct W as (W1 & W2 & _). lia. }
  assert (Hr : room (map fst m)) by (unfold room, zlen; rewrite map_length; exact Hm).
  assert (NDE : NoDup (a :: map fst m)) by (constructor; [exact N|exact (proj1 (proj2 (proj2 (proj2 V))))]).
  destruct (enqueue_ok F (fn_comparator h) (@NoDup Z) junk x (map fst m) a V Hr NDE) as (x' & EQ & V').
  assert (Ka : known E a) by (left; reflexivity).
  pose proof (inv_size _ _ _ _ V) as Sz. pose proof V as (W & _). pose proof W as (W1 & W2 & W3).
  assert (Hc : capacity x + 1 < 2 ^ 60) by (unfold room in Hr; lia).
  destruct (grow_ok junk x W Hc) as (x1 & EG & Wx1 & C1 & M1 & _ & At1 & _).
  unfold m_priorq_enqueue. pose proof (sim_queue _ _ _ _ _ S) as A.
  rewrite (q_field q _ QF_capacity (capacity x) _ _ _ A) by reflexivity. rewrite (q_field q _ QF_max (max_capacity x) _ _ _ A) by reflexivity.
  unfold priorq_enqueue in EQ.
  assert (G : exists st1 h1,
    (if capacity x =? max_capacity x then
         let! n := lift (round_loop 66 (u64 (capacity x + 1)) 1) in
         do! set_field q QF_max n in
         let! s := field q QF_storage in
         let! m := field q QF_max in
         let! s := h_realloc junk s m in
         set_field q QF_storage s
       else ret tt) h = Ok (tt, h1) /\ sim q E h1 st1 x1 /\ beside q E st st1 h h1).
  { destruct (capacity x =? max_capacity x).
    - destruct (round_loop 66 (u64 (capacity x + 1)) 1) as [n| | |] eqn:R; cbn [bind] in EG; try discriminate. injection EG as <-. rewrite step_lift.
      destruct (max_sim q E h st x n S) as (h1 & E1 & S1 & B1). rewrite (bnd_Ok _ _ _ _ _ E1).
      rewrite (q_field q _ QF_storage st _ _ _ (sim_queue _ _ _ _ _ S1)) by reflexivity. rewrite (q_field q _ QF_max n _ _ _ (sim_queue _ _ _ _ _ S1)) by reflexivity.
      destruct (grow_sim q E junk h1 st _ n S1) as (st2 & h2 & E2 & S2 & B2). cbn [storage capacity max_capacity calls] in *.
      exists st2, h2. split; [exact E2|]. split; [exact S2|]. eapply beside_trans; eauto.
    - injection EG as <-. exists st, h. split; [reflexivity|]. split; [exact S|apply beside_refl]. }
  destruct G as (st1 & h1 & E1 & S1 & B1). rewrite EG in EQ. cbn [bind] in EQ. rewrite (bnd_Ok _ _ _ _ _ E1). clear E1 EG.
  rewrite (q_field q _ QF_capacity (capacity x1) _ _ _ (sim_queue _ _ _ _ _ S1)) by reflexivity.
  destruct (capacity_sim q E h1 st1 x1 (u64 (capacity x1 + 1)) S1) as (h2 & E2 & S2 & B2). rewrite (bnd_Ok _ _ _ _ _ E2).
  destruct (raise F _ _ _) as [[x3 slot]| | |] eqn:R; cbn [bind] in EQ; try discriminate.
  assert (GD : good E (capacity x) (Priorq (storage x1) (u64 (capacity x1 + 1)) (max_capacity x1) (calls x1))).
  { intros i y Hi Ri. cbn [storage] in Ri. assert (Bi : 0 <= i < zlen (storage x1)) by (destruct Wx1 as (? & ? & _); lia).
    rewrite rd_at in Ri by exact Bi. injection Ri as <-. rewrite At1 by lia.
    apply (inv_good F E m x (capacity x) V) with (i := i); [intros b Hb; right; exact Hb|lia|lia|]. apply rd_at. lia. }
  destruct (raise_whole q E F HF st1 (capacity x) _ x3 (capacity x1) slot a h2 ltac:(lia) Ka S2 GD ltac:(lia) R) as (h3 & E3 & S3 & _ & _ & B3).
  rewrite (bnd_Ok _ _ _ _ _ E3).
  destruct (assign_sim q E F HF h3 st1 x3 x' slot a S3 Ka EQ) as (h4 & E4 & S4 & B4). exists h4. split; [exact E4|]. split.
  - eapply (finish q E F); [exact HF|exact S4|auto|exact V'].
  - eapply beside_same; [exact A|exact (sim_queue _ _ _ _ _ S4)|exact S4|].
    eapply beside_trans; [exact B1|]. eapply beside_trans; [exact B2|]. eapply beside_trans; [exact B3|exact B4].
Qed.

(** ** Dequeue, pop, remove *)
Lemma says_all h q m st x : sim q m h st x -> forall a x b y, In (a, x) m -> In (b, y) m -> fn h a b = C x y.
Proof. intros S a1 x1 b1 y1 Ia Ib. apply fn_says; eapply sim_key; eauto. Qed.
Lemma perm_fst (m m' : list (Z * X)) a x : Permutation m ((a, x) :: m') -> Permutation (map fst m) (a :: map fst m').
Proof. intros Pm. exact (Permutation_map fst Pm). Qed.
Lemma pull (m : list (Z * X)) a (l : list Z) : Permutation (map fst m) (a :: l) -> exists x m', Permutation m ((a, x) :: m').
Proof.
  intros Pm. assert (I : In a (map fst m)) by (apply (Permutation_in _ (Permutation_sym Pm)); left; reflexivity).
  apply in_map_iff in I. destruct I as ([a0 x] & <- & I). apply in_split in I. destruct I as (l1 & l2 & ->). exists x, (l1 ++ l2).
  symmetry. apply Permutation_middle.
Qed.
Lemma sub_perm (m m' : list (Z * X)) a : Permutation m (a :: m') -> forall b, In b m' -> In b m.
Proof. intros Pm b Hb. apply (Permutation_in _ (Permutation_sym Pm)). right. exact Hb. Qed.
Lemma nodup_rest (m m' : list (Z * X)) a x : NoDup (map fst m) -> Permutation m ((a, x) :: m') -> NoDup (map fst m').
Proof. intros ND Pm. apply (Permutation_NoDup (perm_fst _ _ _ _ Pm)) in ND. inversion ND; assumption. Qed.

Lemma last_good h q m st x : sim q m h st x -> inv (fn h) (@NoDup Z) x (map fst m) -> 0 < capacity x ->
  capacity (shrink x) = capacity x - 1 /\ good m (capacity (shrink x)) (shrink x) /\
  exists z, rd (storage x) (capacity (shrink x)) = Ok z /\ known m z.
Proof.
  intros S V Hc. pose proof V as (W & _). destruct (shrink_wf x W Hc) as [_ Cs]. pose proof W as (W1 & W2 & _). rewrite Cs.
  split; [reflexivity|]. split; [exact (inv_good (fn h) m m x (capacity x - 1) V (fun a H => H) ltac:(lia))|].
  exists (at_ (storage x) (capacity x - 1)). split; [apply rd_at; lia|].
  apply (inv_good (fn h) m m x (capacity x) V (fun a H => H) (Z.le_refl _) (capacity x - 1)); [lia|]. apply rd_at. lia.
Qed.

Lemma dequeue_qinv h q m : qinv h q m -> m <> [] ->
  exists a x l h', m_priorq_peek q h = Ok (a, h) /\ m_priorq_dequeue ask tell q h = Ok (a, h') /\ Permutation m ((a, x) :: l) /\
    (forall b y, In (b, y) m -> C x y <= 0) /\ (forall y m', Permutation m ((a, y) :: m') -> qinv h' q m') /\ same_beside read q m h h'.
Proof.
  intros (st & x & S & V) Hm. pose proof (inv_size _ _ _ _ V) as Sz.
  assert (Hc : 0 < capacity x) by (rewrite <- Sz; unfold zlen; rewrite map_length; destruct m; [contradiction|cbn; lia]).
  destruct (dequeue_ok (fn h) (fn_comparator h) (@NoDup Z) x (map fst m) V Hc) as (x' & a & EQ & [Ia Le] & (l & Pl) & V').
  destruct (pull m a l Pl) as (y & m1 & P1). pose proof (says_all h q m st x S) as HF.
  pose proof (sim_queue _ _ _ _ _ S) as A. destruct (last_good h q m st x S V Hc) as (Cs & Gs & z & Rz & Kz).
  pose proof V as (W & _). pose proof W as (W1 & W2 & _).
  assert (Ya : In (a, y) m) by (apply (Permutation_in _ (Permutation_sym P1)); left; reflexivity).
  assert (D : exists h', m_priorq_dequeue ask tell q h = Ok (a, h') /\ sim q m h' st x' /\ beside q m st st h h').
  { unfold m_priorq_dequeue. rewrite (q_field q _ QF_capacity (capacity x) _ _ _ A) by reflexivity. unfold priorq_dequeue in EQ.
    destruct (capacity x =? 0) eqn:C0; [lia|]. change (storage (shrink x)) with (storage x) in EQ. rewrite Rz in EQ.
    destruct (capacity x =? 1).
    - cbn [bind] in EQ. injection EQ as <- <-. destruct (last_sim q m ret h st x z S Rz) as (h1 & E1 & S1 & B1). exists h1.
      rewrite run_ret in E1. auto.
    - destruct (rd (storage x) 0) as [y0| | |] eqn:R0; cbn [bind] in EQ; try discriminate. rewrite (q_stored q _ _ _ _ _ _ A R0).
      destruct (lower (fn h) (shrink x) 0 z) as [x2| | |] eqn:L; cbn [bind] in EQ; try discriminate. injection EQ as <- <-.
      destruct (last_sim q m (fun last => do! m_lower ask tell q 0 last in ret y0) h st x z S Rz) as (h1 & E1 & S1 & B1). rewrite E1.
      destruct (lower_whole q m (fn h) HF st _ _ _ _ h1 Kz S1 Gs L) as (h2 & E2 & S2 & B2). rewrite (bnd_Ok _ _ _ _ _ E2).
      exists h2. split; [reflexivity|]. split; [exact S2|]. eapply beside_trans; eauto. }
  destruct D as (h' & ED & S' & B'). exists a, y, m1, h'. split.
  { unfold m_priorq_peek, m_priorq_empty, m_priorq_size. rewrite !bnd_assoc. rewrite (q_field q _ QF_capacity (capacity x) _ _ _ A) by reflexivity.
    rewrite step_ret. destruct (capacity x =? 0) eqn:C0; [lia|].
    assert (R0 : rd (storage x) 0 = Ok a).
    { unfold priorq_dequeue in EQ. rewrite C0 in EQ. change (storage (shrink x)) with (storage x) in EQ. rewrite Rz in EQ. destruct (capacity x =? 1) eqn:C1.
      - cbn [bind] in EQ. injection EQ as <- <-. rewrite <- Rz. f_equal. lia.
      - destruct (rd (storage x) 0) as [y0| | |]; cbn [bind] in EQ; try discriminate. destruct (lower (fn h) (shrink x) 0 z); cbn [bind] in EQ; try discriminate.
        injection EQ as _ <-. reflexivity. }
    rewrite <- (run_ret (m_stored q 0)). rewrite (q_stored q _ _ _ _ _ _ A R0). reflexivity. }
  split; [exact ED|]. split; [exact P1|]. split.
  - intros b y0 Ib. rewrite <- (HF a y b y0 Ya Ib). apply Le. exact (in_map fst _ _ Ib).
  - split.
    + intros y0 m' P'. eapply (finish q m (fn h)); [exact HF|exact S'|exact (sub_perm _ _ _ P')|].
      apply V'; [exact (perm_fst _ _ _ _ P')|]. exact (nodup_rest _ _ _ _ (proj1 (proj2 (proj2 (proj2 V)))) P').
    + eapply beside_same; [exact A|exact (sim_queue _ _ _ _ _ S')|exact S'|exact B'].
Qed.

Lemma pop_qinv h q m : qinv h q m -> m <> [] ->
  exists a x l h', m_priorq_pop q h = Ok (a, h') /\ Permutation m ((a, x) :: l) /\
    (forall y m', Permutation m ((a, y) :: m') -> qinv h' q m') /\ same_beside read q m h h'.
Proof.
  intros (st & x & S & V) Hm. pose proof (inv_size _ _ _ _ V) as Sz.
  assert (Hc : 0 < capacity x) by (rewrite <- Sz; unfold zlen; rewrite map_length; destruct m; [contradiction|cbn; lia]).
  destruct (pop_ok (fn h) (@NoDup Z) x (map fst m) V Hc) as (x' & a & EQ & (l & Pl) & V').
  destruct (pull m a l Pl) as (y & m1 & P1). pose proof (says_all h q m st x S) as HF.
  pose proof (sim_queue _ _ _ _ _ S) as A. destruct (last_good h q m st x S V Hc) as (Cs & Gs & z & Rz & Kz).
  unfold priorq_pop, priorq_empty, priorq_size in EQ. destruct (capacity x =? 0) eqn:C0; [lia|]. change (storage (shrink x)) with (storage x) in EQ. rewrite Rz in EQ.
  cbn [bind] in EQ. injection EQ as <- <-. destruct (last_sim q m ret h st x z S Rz) as (h1 & E1 & S1 & B1). rewrite run_ret in E1.
  exists z, y, m1, h1. split.
  { unfold m_priorq_pop, m_priorq_empty, m_priorq_size. rewrite !bnd_assoc. rewrite (q_field q _ QF_capacity (capacity x) _ _ _ A) by reflexivity.
    rewrite step_ret, C0. exact E1. }
  split; [exact P1|]. split.
  - intros y0 m' P'. eapply (finish q m (fn h)); [exact HF|exact S1|exact (sub_perm _ _ _ P')|].
    apply V'; [exact (perm_fst _ _ _ _ P')|]. exact (nodup_rest _ _ _ _ (proj1 (proj2 (proj2 (proj2 V)))) P').
  - eapply beside_same; [exact A|exact (sim_queue _ _ _ _ _ S1)|exact S1|exact B1].
Qed.

(** Each element has noted its slot. *)
Lemma noted_slot h q m st x a y loc : sim q m h st x -> inv (fn h) (@NoDup Z) x (map fst m) -> In (a, y) m -> item h a y loc ->
  0 <= loc < capacity x /\ at_ (storage x) loc = a.
Proof.
  intros S V I It. pose proof V as (W & _ & Pm & _ & L). pose proof W as (W1 & W2 & _).
  assert (Ia : In a (live (capacity x) (storage x))) by (apply (Permutation_in _ (Permutation_sym Pm)); exact (in_map fst _ _ I)).
  apply live_in in Ia; [|lia]. destruct Ia as (i & Hi & E0). specialize (L (fun m H => H) i Hi ltac:(lia)). rewrite E0 in L.
  destruct (sim_items _ _ _ _ _ S a y I) as (_ & l & (b & Gb & Rb & Lb) & L'). destruct It as (b' & Gb' & Rb' & Lb').
  rewrite Gb in Gb'. injection Gb' as <-. specialize (L' i L). assert (Li : loc = i) by congruence. rewrite Li. auto.
Qed.
Lemma remove_qinv h q m a c m' loc : qinv h q m -> Permutation m ((a, c) :: m') -> item h a c loc ->
  exists h', m_priorq_remove ask tell q loc h = Ok (a, h') /\ qinv h' q m' /\ same_beside read q m h h'.
Proof.
  intros (st & x & S & V) Pm It. assert (Ia : In (a, c) m) by (apply (Permutation_in _ (Permutation_sym Pm)); left; reflexivity).
  destruct (noted_slot h q m st x a c loc S V Ia It) as [Hl At]. pose proof (says_all h q m st x S) as HF.
  destruct (remove_ok (fn h) (fn_comparator h) (@NoDup Z) x (map fst m) loc V Hl) as (x' & EQ & _ & V'). rewrite At in EQ, V'.
  pose proof (sim_queue _ _ _ _ _ S) as A. destruct (last_good h q m st x S V ltac:(lia)) as (Cs & Gs & z & Rz & Kz).
  pose proof V as (W & _). pose proof W as (W1 & W2 & W3).
  unfold priorq_remove in EQ. rewrite rd_at in EQ by lia. cbn [bind] in EQ. change (storage (shrink x)) with (storage x) in EQ. rewrite Rz in EQ. cbn [bind] in EQ.
  destruct (raise (fn h) (shrink x) loc z) as [[x2 slot]| | |] eqn:Ra; cbn [bind] in EQ; try discriminate.
  destruct (lower (fn h) x2 slot z) as [x3| | |] eqn:L; cbn [bind] in EQ; try discriminate. injection EQ as <-.
  unfold m_priorq_remove. assert (R0 : rd (storage x) loc = Ok a) by (rewrite rd_at by lia; congruence). rewrite (q_stored q _ _ _ _ _ _ A R0).
  destruct (last_sim q m (fun other => let! slot := m_raise ask tell q loc other in do! m_lower ask tell q slot other in ret a) h st x z S Rz) as (h1 & E1 & S1 & B1). rewrite E1.
  destruct (raise_whole q m (fn h) HF st (capacity (shrink x)) (shrink x) x2 loc slot z h1 ltac:(lia) Kz S1 Gs ltac:(lia) Ra) as (h2 & E2 & S2 & G2 & C2 & B2).
  rewrite (bnd_Ok _ _ _ _ _ E2). rewrite <- C2 in G2.
  destruct (lower_whole q m (fn h) HF st _ _ _ _ h2 Kz S2 G2 L) as (h3 & E3 & S3 & B3). rewrite (bnd_Ok _ _ _ _ _ E3).
  exists h3. split; [reflexivity|]. split.
  - eapply (finish q m (fn h)); [exact HF|exact S3|exact (sub_perm _ _ _ Pm)|].
    apply V'; [exact (perm_fst _ _ _ _ Pm)|]. exact (nodup_rest _ _ _ _ (proj1 (proj2 (proj2 (proj2 V)))) Pm).
  - eapply beside_same; [exact A|exact (sim_queue _ _ _ _ _ S3)|exact S3|]. eapply beside_trans; [exact B1|]. eapply beside_trans; [exact B2|exact B3].
Qed.

Lemma other_qinv h q m h' : qinv h q m -> (forall y, own h q y -> get h' y = get h y) ->
  (forall a x loc, In (a, x) m -> item h a x loc -> item h' a x loc) -> qinv h' q m.
Proof.
  intros (st & x & S & V) O I. pose proof (sim_queue _ _ _ _ _ S) as A.
  assert (S' : sim q m h' st x).
  { constructor.
    - destruct A as (G & ST). split; [rewrite O; [exact G|left; reflexivity]|]. destruct ST as [ST|(ST & N)]; [left; exact ST|right]. split; [|exact N].
      rewrite O; [exact ST|]. apply (mine_own q h st x st (sim_queue _ _ _ _ _ S)). right. split; [exact (get_nonnull _ _ _ ST)|reflexivity].
    - intros a y Ia. destruct (sim_items _ _ _ _ _ S a y Ia) as (M & loc & It & L). split; [exact M|]. exists loc. split; [apply I; assumption|exact L]. }
  eapply (finish q m (fn h)); [exact (says_all h q m st x S)|exact S'|auto|exact V].
Qed.

Lemma queued_qinv h q m : queued h q m -> qinv h q m.
Proof.
  induction 1 as [junk h q h' E0|junk h q m a x h' Q V K O N Hm E0|h q m a x m' h' Q V E0 Pm|h q m a x m' h' Q V E0 Pm|h q m a x loc m' r h' Q V Pm It E0|h q m h' Q V O I].
  - destruct (make_qinv junk h) as (q1 & h1 & E1 & V & _). rewrite E0 in E1. injection E1 as <- <-. exact V.
  - destruct (enqueue_qinv junk h q m a x V K O N Hm) as (h1 & E1 & V1 & _). rewrite E0 in E1. injection E1 as <-. exact V1.
  - destruct (dequeue_qinv h q m V) as (a1 & x1 & l & h1 & _ & E1 & _ & _ & V1 & _); [intros ->; apply Permutation_nil in Pm; discriminate|].
    rewrite E0 in E1. injection E1 as <- <-. exact (V1 _ _ Pm).
  - destruct (pop_qinv h q m V) as (a1 & x1 & l & h1 & E1 & _ & V1 & _); [intros ->; apply Permutation_nil in Pm; discriminate|].
    rewrite E0 in E1. injection E1 as <- <-. exact (V1 _ _ Pm).
  - destruct (remove_qinv h q m a x m' loc V Pm It) as (h1 & E1 & V1 & _). rewrite E0 in E1. injection E1 as -> <-. exact V1.
  - eapply other_qinv; eauto.
Qed.

(** * Results *)

Lemma make_queued junk h : exists q h', m_make_priority_queue_2 junk cmp reloc obj h = Ok (q, h') /\ queued h' q [] /\
  (forall y, get h y <> None -> ~ own h' q y) /\ (forall y, ~ own h' q y -> get h' y = get h y).
Proof. destruct (make_qinv junk h) as (q & h' & E0 & _ & F). exists q, h'. split; [exact E0|]. split; [eapply Q_make; exact E0|exact F]. Qed.
Lemma enqueue_queued junk h q m a x : queued h q m -> key_at h a x -> ~ own h q a -> ~ In a (map fst m) -> space m ->
  exists h', m_priorq_enqueue ask tell junk q a h = Ok (tt, h') /\ queued h' q ((a, x) :: m) /\ same_beside read q ((a, x) :: m) h h'.
Proof.
  intros Q K O N Hm. destruct (enqueue_qinv junk h q m a x (queued_qinv _ _ _ Q) K O N Hm) as (h' & E0 & _ & F).
  exists h'. split; [exact E0|]. split; [eapply Q_enqueue; eauto|exact F].
Qed.
Lemma dequeue_queued h q m : queued h q m -> m <> [] ->
  exists a x m' h', m_priorq_peek q h = Ok (a, h) /\ m_priorq_dequeue ask tell q h = Ok (a, h') /\ Permutation m ((a, x) :: m') /\
    (forall b y, In (b, y) m -> C x y <= 0) /\ queued h' q m' /\ same_beside read q m h h'.
Proof.
  intros Q Hm. destruct (dequeue_qinv h q m (queued_qinv _ _ _ Q) Hm) as (a & x & m' & h' & E1 & E2 & Pm & Le & _ & F).
  exists a, x, m', h'. split; [exact E1|]. split; [exact E2|]. split; [exact Pm|]. split; [exact Le|]. split; [eapply Q_dequeue; eauto|exact F].
Qed.
Lemma pop_queued h q m : queued h q m -> m <> [] ->
  exists a x m' h', m_priorq_pop q h = Ok (a, h') /\ Permutation m ((a, x) :: m') /\ queued h' q m' /\ same_beside read q m h h'.
Proof.
  intros Q Hm. destruct (pop_qinv h q m (queued_qinv _ _ _ Q) Hm) as (a & x & m' & h' & E1 & Pm & _ & F).
  exists a, x, m', h'. split; [exact E1|]. split; [exact Pm|]. split; [eapply Q_pop; eauto|exact F].
Qed.
Lemma remove_queued h q m a x m' : queued h q m -> Permutation m ((a, x) :: m') ->
  exists loc h', item h a x loc /\ m_priorq_remove ask tell q loc h = Ok (a, h') /\ queued h' q m' /\ same_beside read q m h h'.
Proof.
  intros Q Pm. destruct (queued_qinv _ _ _ Q) as (st & x0 & S & V).
  destruct (sim_items _ _ _ _ _ S a x) as (_ & loc & It & _); [apply (Permutation_in _ (Permutation_sym Pm)); left; reflexivity|].
  destruct (remove_qinv h q m a x m' loc (queued_qinv _ _ _ Q) Pm It) as (h' & E0 & _ & F). exists loc, h'. split; [exact It|]. split; [exact E0|].
  split; [eapply Q_remove; eauto|exact F].
Qed.
Lemma items_queued h q m : queued h q m -> NoDup (map fst m) /\
  (forall a x, In (a, x) m -> ~ own h q a /\ exists loc, item h a x loc /\ 0 <= loc < zlen m) /\
  (forall a x b y loc, In (a, x) m -> In (b, y) m -> item h a x loc -> item h b y loc -> a = b).
Proof.
  intros Q. destruct (queued_qinv _ _ _ Q) as (st & x0 & S & V). pose proof (inv_size _ _ _ _ V) as Sz. unfold zlen in Sz. rewrite map_length in Sz. fold (zlen m) in Sz.
  split; [exact (proj1 (proj2 (proj2 (proj2 V))))|]. split.
  - intros a x I. destruct (sim_items _ _ _ _ _ S a x I) as (M & loc & It & _). split; [intros O; apply M; apply (mine_own q h st x0 a (sim_queue _ _ _ _ _ S)); exact O|].
    exists loc. split; [exact It|]. rewrite Sz. exact (proj1 (noted_slot _ _ _ _ _ _ _ _ S V I It)).
  - intros a x b y loc Ia Ib Ita Itb. destruct (noted_slot _ _ _ _ _ _ _ _ S V Ia Ita) as [_ <-]. exact (proj2 (noted_slot _ _ _ _ _ _ _ _ S V Ib Itb)).
Qed.
Lemma look_queued h q m : queued h q m ->
  m_priorq_size q h = Ok (zlen m, h) /\ m_priorq_empty q h = Ok (match m with [] => true | _ => false end, h) /\
  (m = [] -> m_priorq_peek q h = Ok (0, h) /\ m_priorq_dequeue ask tell q h = Ok (0, h) /\ m_priorq_pop q h = Ok (0, h)).
Proof.
  intros Q. destruct (queued_qinv _ _ _ Q) as (st & x0 & S & V). pose proof (inv_size _ _ _ _ V) as Sz. unfold zlen in Sz. rewrite map_length in Sz. fold (zlen m) in Sz.
  pose proof (sim_queue _ _ _ _ _ S) as A.
  assert (E0 : m_priorq_size q h = Ok (zlen m, h)).
  { unfold m_priorq_size. rewrite <- (run_ret (field q QF_capacity)). rewrite (q_field q _ QF_capacity (capacity x0) _ _ _ A) by reflexivity. rewrite Sz. reflexivity. }
  assert (E1 : m_priorq_empty q h = Ok (match m with [] => true | _ => false end, h)).
  { unfold m_priorq_empty. rewrite (bnd_Ok _ _ _ _ _ E0). unfold ret. destruct m; [reflexivity|]. rewrite zlen_cons. pose proof (zlen_nonneg m). destruct (1 + zlen m =? 0) eqn:Z0; [lia|].
    reflexivity. }
  split; [exact E0|]. split; [exact E1|]. intros ->. unfold m_priorq_peek, m_priorq_pop. rewrite !(bnd_Ok _ _ _ _ _ E1). split; [reflexivity|]. split; [|reflexivity].
  unfold m_priorq_dequeue. rewrite (q_field q _ QF_capacity (capacity x0) _ _ _ A) by reflexivity. rewrite <- Sz. reflexivity.
Qed.
Lemma destroy_queued h q m : queued h q m ->
  exists h', m_destroy_priority_queue q h = Ok (tt, h') /\ (forall y, own h q y -> get h' y = None) /\ (forall y, ~ own h q y -> get h' y = get h y).
Proof.
  intros Q. destruct (queued_qinv _ _ _ Q) as (st & x0 & S & V). pose proof (sim_queue _ _ _ _ _ S) as A.
  unfold m_destroy_priority_queue. rewrite (q_field q _ QF_storage st _ _ _ A) by reflexivity.
  assert (O : forall y, own h q y <-> mine q st y) by (intros y; exact (mine_own q h st x0 y A)).
  destruct A as (G & [(-> & _)|(G1 & N)]).
  - unfold fsfree at 1. cbn [Z.eqb]. rewrite step_ret. exists (drop_cell h q). split; [exact (free_ok q _ h G)|]. split.
    + intros y Y. apply O in Y. destruct Y as [->|(Z0 & _)]; [|contradiction]. rewrite get_drop, Z.eqb_refl. reflexivity.
    + intros y Y. rewrite get_drop. destruct (Z.eqb_spec y q) as [->|_]; [exfalso; apply Y; left; reflexivity|reflexivity].
  - rewrite (bnd_Ok _ _ _ _ _ (free_ok st _ h G1)). assert (G' : get (drop_cell h st) q = Some (CSlots [cmp; reloc; obj; st; capacity x0; max_capacity x0])).
    { rewrite get_drop. destruct (Z.eqb_spec q st); [contradiction|exact G]. }
    exists (drop_cell (drop_cell h st) q). split; [exact (free_ok q _ _ G')|]. split.
    + intros y Y. apply O in Y. rewrite !get_drop. destruct Y as [->|(_ & ->)]; [rewrite Z.eqb_refl; reflexivity|]. rewrite Z.eqb_refl. destruct (st =? q); reflexivity.
    + intros y Y. rewrite !get_drop. destruct (Z.eqb_spec y q) as [->|_]; [exfalso; apply Y; left; reflexivity|].
      destruct (Z.eqb_spec y st) as [->|_]; [|reflexivity]. exfalso. apply Y, O. right. split; [exact (get_nonnull _ _ _ G1)|reflexivity].
Qed.

(** A queue that is emptied gives its elements in order. *)
Lemma drain_queued n : forall h q m, queued h q m -> length m = n ->
  exists l h', take_all ask tell n q h = Ok (map fst l, h') /\ Permutation m l /\ StronglySorted (fun a b => C (snd a) (snd b) <= 0) l /\ queued h' q [].
Proof.
  induction n as [|n IH]; intros h q m Q Hn.
  - destruct m; [|discriminate]. exists [], h. split; [reflexivity|]. split; [constructor|]. split; [constructor|exact Q].
  - destruct (dequeue_queued h q m Q) as (a & x & m1 & h1 & _ & E1 & P1 & Le & Q1 & _); [intros ->; discriminate|].
    assert (L1 : length m1 = n) by (apply Permutation_length in P1; cbn in P1; lia).
    destruct (IH h1 q m1 Q1 L1) as (l & h2 & E2 & P2 & S2 & Q2). exists ((a, x) :: l), h2. split.
    + cbn [take_all]. rewrite (bnd_Ok _ _ _ _ _ E1), (bnd_Ok _ _ _ _ _ E2). reflexivity.
    + split; [rewrite P1; constructor; exact P2|]. split; [|exact Q2]. constructor; [exact S2|]. apply Forall_forall. intros [b y] Ib. cbn [snd].
      apply (Le b y). apply (sub_perm _ _ _ P1). apply (Permutation_in _ (Permutation_sym P2)). exact Ib.
Qed.

(** An element is taken out, changed, and put back. *)
Lemma move_queued junk h q m a x m' y : queued h q m -> Permutation m ((a, x) :: m') -> space m' ->
  exists loc h1, item h a x loc /\ m_priorq_remove ask tell q loc h = Ok (a, h1) /\
    forall h2, key_at h2 a y -> (forall b, b <> a -> get h2 b = get h1 b) ->
      exists h3, m_priorq_enqueue ask tell junk q a h2 = Ok (tt, h3) /\ queued h3 q ((a, y) :: m').
Proof.
  intros Q Pm Hs. destruct (remove_queued h q m a x m' Q Pm) as (loc & h1 & It & E1 & Q1 & (_ & B & _)).
  destruct (items_queued _ _ _ Q) as (ND & Its & _). assert (Ia : In (a, x) m) by (apply (Permutation_in _ (Permutation_sym Pm)); left; reflexivity).
  exists loc, h1. split; [exact It|]. split; [exact E1|]. intros h2 K2 O2.
  assert (Na : ~ In a (map fst m')) by (apply (Permutation_NoDup (perm_fst _ _ _ _ Pm)) in ND; inversion ND; assumption).
  assert (Oa : ~ own h1 q a).
  { apply B; [exact (proj1 (Its a x Ia))|]. destruct It as (b & Gb & _). rewrite Gb. discriminate. }
  assert (Nq : q <> a) by (intros ->; apply Oa; left; reflexivity).
  assert (Q2 : queued h2 q m').
  { eapply Q_other; [exact Q1| |].
    - intros b Ob. apply O2. intros ->. contradiction.
    - intros b z l Ib (c & Gc & Rc & Lc). exists c. split; [|auto]. rewrite O2; [exact Gc|]. intros ->. apply Na. exact (in_map fst _ _ Ib). }
  destruct (enqueue_queued junk h2 q m' a y Q2 K2) as (h3 & E3 & Q3 & _); [|exact Na|exact Hs|exists h3; auto].
  intros [->|(Z0 & c & r & o & n & k & G)]; [apply Oa; left; reflexivity|]. apply Oa. right. split; [exact Z0|]. exists c, r, o, n, k. rewrite <- O2 by exact Nq. exact G.
Qed.
End Queues.

Lemma timers_serving cmp reloc obj : reloc <> 0 -> reloc <> dummy -> serving timer noted ask_timer tell_timer cmp reloc obj earlier.
Proof.
  intros N D. constructor; [constructor| |].
  - intros x y _ _. unfold earlier. destruct (Z.ltb_spec x y), (Z.ltb_spec y x); lia.
  - intros x y z _ _ _. unfold earlier. destruct (Z.ltb_spec x y), (Z.ltb_spec y x), (Z.ltb_spec y z), (Z.ltb_spec z y), (Z.ltb_spec x z), (Z.ltb_spec z x); lia.
  - intros h k x l y (b & Gb & Rb) (c & Gc & Rc). destruct b as [|x0 [|l0 b]]; try discriminate. destruct c as [|y0 [|l1 c]]; try discriminate.
    injection Rb as <-. injection Rc as <-. unfold ask_timer.
    rewrite (step_field _ k 0 _ x0 h Gb); [|rewrite rd_at; [reflexivity|rewrite !zlen_cons; pose proof (zlen_nonneg b); lia]].
    rewrite (step_field _ l 0 _ y0 h Gc); [|rewrite rd_at; [reflexivity|rewrite !zlen_cons; pose proof (zlen_nonneg c); lia]]. reflexivity.
  - auto.
  - intros h a x loc (b & Gb & Rb). destruct b as [|x0 [|l0 b]]; try discriminate. injection Rb as <-.
    pose proof (get_nonnull _ _ _ Gb) as Na.
    exists (put_cell h a (CSlots (x0 :: loc :: b))). split; [|split].
    + unfold tell_timer. rewrite <- (run_ret (set_field a 1 loc)). rewrite (step_set_field _ a 1 _ (x0 :: loc :: b) loc h Gb); [reflexivity|]. unfold wr.
      replace (inb (x0 :: l0 :: b) 1) with true; [reflexivity|]. unfold inb. rewrite !zlen_cons. pose proof (zlen_nonneg b). lia.
    + exists (x0 :: loc :: b). rewrite get_put, Z.eqb_refl by exact Na. auto.
    + intros y Y. rewrite get_put by exact Na. destruct (Z.eqb_spec y a); [contradiction|reflexivity].
Qed.
