(** Many integer sets, priority queues and byte arrays on one heap. *)
From Verif Require Import Base CMem Heap ListModel ListSpec ListProofs IntsetModel PriorqModel ObjModel OwnModel OwnSpec OwnProofs ObjBase ByteHeapModel ObjSpec.
From Verif Require ByteArrayModel ByteArraySpec ByteHeap.
From Coq Require Import ZifyBool ZifyNat.

(** ** Integer sets *)
Definition set_at (h : heap) (s d : Z) (x : intset) : Prop :=
  get h s = Some (CSlots [size x; d]) /\ get h d = Some (CSlots (data x)) /\ s <> d.

Lemma make_set_ok junk n h : exists s d h', h_make_intset junk n h = Ok (s, h') /\ set_at h' s d (make_intset n) /\ turns [] [s; d] h h'.
Proof.
  unfold h_make_intset. destruct (alloc_spec (CSlots (fresh_block junk 2)) h) as (s & h1 & E1 & Ns & Fs & G1). rewrite (bnd_Ok _ _ _ _ _ E1).
  assert (Gs : get h1 s = Some (CSlots (fresh_block junk 2))) by (rewrite G1, Z.eqb_refl; reflexivity).
  rewrite (step_set_field _ s SI_size (fresh_block junk 2) [n; junk 1%nat] n h1 Gs eq_refl).
  set (h2 := put_cell h1 s (CSlots [n; junk 1%nat])).
  assert (G2 : forall x, get h2 x = if x =? s then Some (CSlots [n; junk 1%nat]) else get h x).
  { intros x. unfold h2. rewrite get_put by exact Ns. rewrite G1. destruct (x =? s); reflexivity. }
  destruct (alloc_spec (CSlots (repeat 0 (Z.to_nat (bits_to_longs n)))) h2) as (d & h3 & E3 & Nd & Fd & G3). rewrite (bnd_Ok _ _ _ _ _ E3).
  assert (Nsd : s <> d). { intros <-. rewrite G2, Z.eqb_refl in Fd. discriminate. }
  assert (Gs3 : get h3 s = Some (CSlots [n; junk 1%nat])).
  { rewrite G3, G2, Z.eqb_refl. destruct (Z.eqb_spec s d); [congruence|reflexivity]. }
  rewrite (step_set_field _ s SI_data _ [n; d] d h3 Gs3 eq_refl).
  exists s, d, (put_cell h3 s (CSlots [n; d])). split; [reflexivity|].
  assert (G4 : forall x, get (put_cell h3 s (CSlots [n; d])) x = if x =? s then Some (CSlots [n; d]) else if x =? d then Some (CSlots (repeat 0 (Z.to_nat (bits_to_longs n)))) else get h x).
  { intros x. rewrite get_put by exact Ns. destruct (x =? s) eqn:X; [reflexivity|]. rewrite G3, G2, X. reflexivity. }
  split.
  - split; [rewrite G4, Z.eqb_refl; reflexivity|]. split; [|exact Nsd]. rewrite G4, Z.eqb_refl. destruct (Z.eqb_spec d s); [congruence|reflexivity].
  - rewrite G2 in Fd. destruct (Z.eqb_spec d s); [congruence|]. split; [|split].
    + intros x _ X. cbn [In] in X. rewrite G4. destruct (Z.eqb_spec x s); [subst; tauto|]. destruct (Z.eqb_spec x d); [subst; tauto|reflexivity].
    + intros x [<-|[<-|[]]] _; assumption.
    + intros x [].
Qed.

Lemma destroy_set_ok s d x h : set_at h s d x -> exists h', h_destroy_intset s h = Ok (tt, h') /\ turns [s; d] [] h h'.
Proof.
  intros (Gs & Gd & N). unfold h_destroy_intset. rewrite (step_field _ s SI_data [size x; d] d h Gs eq_refl).
  rewrite (bnd_Ok _ _ _ _ _ (free_ok _ _ _ Gd)).
  assert (Gs' : get (drop_cell h d) s = Some (CSlots [size x; d])). { rewrite get_drop. destruct (Z.eqb_spec s d); [congruence|exact Gs]. }
  exists (drop_cell (drop_cell h d) s). split; [exact (free_ok _ _ _ Gs')|]. split; [|split].
  - intros y X _. cbn [In] in X. rewrite !get_drop. destruct (Z.eqb_spec y s); [subst; tauto|]. destruct (Z.eqb_spec y d); [subst; tauto|reflexivity].
  - intros y [].
  - intros y [<-|[<-|[]]] _; rewrite !get_drop, Z.eqb_refl; [reflexivity|]. destruct (d =? s); reflexivity.
Qed.

(** A write to the words of the set. *)
Lemma set_write s d x b h : set_at h s d x -> set_at (put_cell h d (CSlots b)) s d (Intset (size x) b) /\ turns [s; d] [s; d] h (put_cell h d (CSlots b)).
Proof.
  intros (Gs & Gd & N). pose proof (get_nonnull _ _ _ Gd) as Nd. split.
  - split; [rewrite get_put by exact Nd; destruct (Z.eqb_spec s d); [congruence|exact Gs]|]. split; [rewrite get_put, Z.eqb_refl by exact Nd; reflexivity|exact N].
  - apply turns_put; [right; left; reflexivity|exact Nd].
Qed.

Lemma set_add_ok s d x x' e h : set_at h s d x -> intset_add x e = Ok x' ->
  exists h', h_intset_add s e h = Ok (tt, h') /\ set_at h' s d x' /\ turns [s; d] [s; d] h h'.
Proof.
  intros A H. pose proof A as (Gs & Gd & N). unfold h_intset_add. rewrite (step_field _ s SI_size [size x; d] (size x) h Gs eq_refl).
  unfold intset_add in H. destruct (e <? size x).
  - rewrite (step_field _ s SI_data [size x; d] d h Gs eq_refl).
    destruct (rd (data x) (e / 64)) as [w| | |] eqn:R; cbn [bind] in H; try discriminate. rewrite (step_field _ d (e / 64) (data x) w h Gd R).
    destruct (wr (data x) (e / 64) _) as [b| | |] eqn:W; cbn [bind] in H; try discriminate. injection H as <-.
    exists (put_cell h d (CSlots b)). split; [exact (set_field_ok d _ _ _ _ h Gd W)|]. apply set_write, A.
  - injection H as <-. exists h. split; [reflexivity|]. split; [exact A|apply turns_refl].
Qed.
Lemma set_remove_ok s d x x' e h : set_at h s d x -> intset_remove x e = Ok x' ->
  exists h', h_intset_remove s e h = Ok (tt, h') /\ set_at h' s d x' /\ turns [s; d] [s; d] h h'.
Proof.
  intros A H. pose proof A as (Gs & Gd & N). unfold h_intset_remove. rewrite (step_field _ s SI_size [size x; d] (size x) h Gs eq_refl).
  unfold intset_remove in H. destruct (e <? size x).
  - rewrite (step_field _ s SI_data [size x; d] d h Gs eq_refl).
    destruct (rd (data x) (e / 64)) as [w| | |] eqn:R; cbn [bind] in H; try discriminate. rewrite (step_field _ d (e / 64) (data x) w h Gd R).
    destruct (wr (data x) (e / 64) _) as [b| | |] eqn:W; cbn [bind] in H; try discriminate. injection H as <-.
    exists (put_cell h d (CSlots b)). split; [exact (set_field_ok d _ _ _ _ h Gd W)|]. apply set_write, A.
  - injection H as <-. exists h. split; [reflexivity|]. split; [exact A|apply turns_refl].
Qed.
Lemma set_has_ok s d x e v h : set_at h s d x -> intset_has x e = Ok v -> h_intset_has s e h = Ok (v, h).
Proof.
  intros (Gs & Gd & N) H. unfold h_intset_has. rewrite (step_field _ s SI_size [size x; d] (size x) h Gs eq_refl).
  unfold intset_has in H. destruct (e <? size x).
  - rewrite (step_field _ s SI_data [size x; d] d h Gs eq_refl).
    destruct (rd (data x) (e / 64)) as [w| | |] eqn:R; cbn [bind] in H; try discriminate. rewrite (step_field _ d (e / 64) (data x) w h Gd R).
    injection H as <-. reflexivity.
  - injection H as <-. reflexivity.
Qed.
Lemma set_next_ok s d x e hit v h : set_at h s d x -> intset_find_next x e hit = Ok v -> h_intset_find_next s e hit h = Ok (v, h).
Proof.
  intros (Gs & Gd & N) H. unfold h_intset_find_next. rewrite (step_field _ s SI_size [size x; d] (size x) h Gs eq_refl).
  rewrite (step_field _ s SI_data [size x; d] d h Gs eq_refl). rewrite (step_ld_slots _ _ _ _ Gd).
  destruct x as [n b]. cbn [size data]. unfold lift. rewrite H. reflexivity.
Qed.
Lemma fill_loop_own s d : forall fuel x i b h, set_at h s d x -> fill_loop fuel (bits_to_longs (size x)) (data x) i = Ok b ->
  exists h', h_fill_loop fuel s i h = Ok (tt, h') /\ set_at h' s d (Intset (size x) b) /\ turns [s; d] [s; d] h h'.
Proof.
  induction fuel as [|fuel IH]; intros x i b h A H; cbn [fill_loop] in H; [discriminate|]. pose proof A as (Gs & Gd & N).
  cbn [h_fill_loop]. rewrite (step_field _ s SI_size [size x; d] (size x) h Gs eq_refl).
  destruct (i <? bits_to_longs (size x)).
  - rewrite (step_field _ s SI_data [size x; d] d h Gs eq_refl).
    destruct (wr (data x) i (2 ^ 64 - 1)) as [b1| | |] eqn:W; cbn [bind] in H; try discriminate.
    rewrite (step_set_field _ d _ _ _ _ h Gd W). destruct (set_write s d x b1 h A) as (A1 & T1).
    destruct (IH (Intset (size x) b1) _ b _ A1 H) as (h' & E & A2 & T2). exists h'. split; [exact E|]. split; [exact A2|]. eapply turns_trans; eauto.
  - injection H as <-. exists h. split; [reflexivity|]. destruct x. split; [exact A|apply turns_refl].
Qed.
Lemma set_fill_ok s d x x' h : set_at h s d x -> intset_fill x = Ok x' ->
  exists h', h_intset_fill s h = Ok (tt, h') /\ set_at h' s d x' /\ turns [s; d] [s; d] h h'.
Proof.
  intros A H. pose proof A as (Gs & Gd & N). unfold h_intset_fill. rewrite (step_field _ s SI_data [size x; d] d h Gs eq_refl).
  rewrite (step_ld_slots _ _ _ _ Gd). unfold intset_fill, fill_within in H.
  destruct (fill_loop _ _ _ _) as [b| | |] eqn:F; cbn [bind] in H; try discriminate. injection H as <-. exact (fill_loop_own s d _ x 0 b h A F).
Qed.

(** ** Priority queues *)
Section Queues.
Variables (code : Z -> Z -> Z -> Z) (junk : nat -> Z) (f q : Z).

Definition queue_at (h : heap) (st : Z) (x : priorq) : Prop :=
  get h q = Some (CSlots [f; st; capacity x; max_capacity x]) /\
  (st = 0 /\ storage x = [] \/ get h st = Some (CSlots (storage x)) /\ q <> st).
(** The cells of the queue. *)
Definition queue_cells (st : Z) : list Z := if st =? 0 then [q] else [q; st].

Lemma in_cells st x : In x (queue_cells st) <-> x = q \/ st <> 0 /\ x = st.
Proof using q.
  unfold queue_cells. destruct (Z.eqb_spec st 0) as [E|E]; cbn [In]; split.
  - intros [H|[]]. left. symmetry. exact H.
  - intros [H|[H _]]; [left; symmetry; exact H|destruct (H E)].
  - intros [H|[H|[]]]; [left; symmetry; exact H|right; split; [exact E|symmetry; exact H]].
  - intros [H|[_ H]]; [left; symmetry; exact H|right; left; symmetry; exact H].
Qed.

Lemma inb_nil (i : Z) : inb (@nil Z) i = false.
Proof. unfold inb. change (zlen (@nil Z)) with 0. lia. Qed.
Lemma rd_nil (i v : Z) : rd (@nil Z) i <> Ok v.
Proof. unfold rd. rewrite inb_nil. discriminate. Qed.
Lemma q_storage {B} (g : Z -> M B) h st x : queue_at h st x -> bnd (field q PQ_storage) g h = g st h.
Proof. intros (G & _). apply (step_field g q PQ_storage _ st h G). reflexivity. Qed.
Lemma q_capacity {B} (g : Z -> M B) h st x : queue_at h st x -> bnd (field q PQ_capacity) g h = g (capacity x) h.
Proof. intros (G & _). apply (step_field g q PQ_capacity _ _ h G). reflexivity. Qed.
Lemma q_max {B} (g : Z -> M B) h st x : queue_at h st x -> bnd (field q PQ_max) g h = g (max_capacity x) h.
Proof. intros (G & _). apply (step_field g q PQ_max _ _ h G). reflexivity. Qed.
Lemma q_stored {B} (g : Z -> M B) h st x slot v : queue_at h st x -> rd (storage x) slot = Ok v -> bnd (stored q slot) g h = g v h.
Proof.
  intros A R. unfold stored. rewrite bnd_assoc. rewrite (q_storage _ _ _ _ A). destruct A as (_ & [(_ & E)|(G & _)]).
  - rewrite E in R. exfalso. exact (rd_nil _ _ R).
  - apply (step_field g st slot _ v h G R).
Qed.
Lemma q_stored' h st x slot v : queue_at h st x -> rd (storage x) slot = Ok v -> stored q slot h = Ok (v, h).
Proof. intros A R. transitivity (bnd (stored q slot) ret h); [unfold bnd; destruct (stored q slot h) as [[]| | |]; reflexivity|]. rewrite (q_stored _ _ _ _ _ _ A R). reflexivity. Qed.
Lemma q_compare {B} (g : Z -> M B) h st x a b : queue_at h st x -> bnd (compare code q a b) g h = g (code f a b) h.
Proof. intros (G & _). unfold compare. rewrite bnd_assoc. rewrite (step_field _ q PQ_cmp _ f h G) by reflexivity. reflexivity. Qed.

Lemma q_rounds {B} (g : nat -> M B) h st x : queue_at h st x -> bnd (rounds q) g h = g (S (length (storage x))) h.
Proof.
  intros A. unfold rounds. rewrite bnd_assoc. rewrite (q_storage _ _ _ _ A). destruct A as (_ & [(-> & ->)|(G & _)]).
  - reflexivity.
  - rewrite (proj2 (Z.eqb_neq st 0)) by (eapply get_nonnull; exact G). rewrite bnd_assoc. rewrite (step_ld_slots _ _ _ _ G). reflexivity.
Qed.

(** A write of the fields other than the storage. *)
Lemma queue_put h st x c m l : queue_at h st x -> let h' := put_cell h q (CSlots [f; st; c; m]) in
  queue_at h' st (Priorq (storage x) c m l) /\ turns (queue_cells st) (queue_cells st) h h'.
Proof.
  intros (G & S). pose proof (get_nonnull _ _ _ G) as Nq. cbn zeta. split.
  - split; [rewrite get_put, Z.eqb_refl by exact Nq; reflexivity|]. destruct S as [S|(S & N)]; [left; exact S|right].
    split; [|exact N]. rewrite get_put by exact Nq. destruct (Z.eqb_spec st q); [congruence|exact S].
  - apply turns_put; [apply in_cells; left; reflexivity|exact Nq].
Qed.

Lemma assign_own h st x x' slot v : queue_at h st x -> assign x slot v = Ok x' ->
  exists h', h_assign q slot v (calls x) h = Ok (calls x', h') /\ queue_at h' st x' /\ turns (queue_cells st) (queue_cells st) h h'.
Proof.
  intros A H. unfold assign in H. destruct (wr (storage x) slot v) as [s| | |] eqn:W; cbn [bind] in H; try discriminate. injection H as <-.
  unfold h_assign. rewrite (q_storage _ _ _ _ A). destruct A as (G & [(_ & E)|(S & N)]).
  - rewrite E in W. exfalso. unfold wr in W. rewrite inb_nil in W. discriminate.
  - pose proof (get_nonnull _ _ _ S) as Ns. rewrite (step_set_field _ st _ _ _ _ h S W). exists (put_cell h st (CSlots s)). split; [reflexivity|]. split.
    + split; [rewrite get_put by exact Ns; destruct (Z.eqb_spec q st); [congruence|exact G]|]. right. split; [|exact N].
      rewrite get_put, Z.eqb_refl by exact Ns. reflexivity.
    + apply turns_put; [apply in_cells; right; auto|exact Ns].
Qed.

Lemma raise_loop_own st : forall fuel x x' slot slot' v h, queue_at h st x -> raise_loop (code f) fuel x slot v = Ok (x', slot') ->
  exists h', h_raise_loop code fuel q slot v (calls x) h = Ok ((slot', calls x'), h') /\ queue_at h' st x' /\ turns (queue_cells st) (queue_cells st) h h'.
Proof.
  induction fuel as [|fuel IH]; intros x x' slot slot' v h A H; cbn [raise_loop] in H; [discriminate|]. cbn [h_raise_loop].
  destruct (truth slot).
  - destruct (rd (storage x) (u64 (slot - 1) / 2)) as [y| | |] eqn:R; cbn [bind] in H; try discriminate.
    rewrite (q_stored _ _ _ _ _ _ A R). rewrite (q_compare _ _ _ _ _ _ A). destruct (code f v y >=? 0).
    + injection H as <- <-. exists h. split; [reflexivity|]. split; [exact A|apply turns_refl].
    + rewrite (q_stored _ _ _ _ _ _ A R). destruct (assign x slot y) as [x1| | |] eqn:As; cbn [bind] in H; try discriminate.
      destruct (assign_own h st x x1 slot y A As) as (h1 & E1 & A1 & T1). rewrite (bnd_Ok _ _ _ _ _ E1).
      destruct (IH _ _ _ _ _ _ A1 H) as (h2 & E2 & A2 & T2). exists h2. split; [exact E2|]. split; [exact A2|]. eapply turns_trans; eauto.
  - injection H as <- <-. exists h. split; [reflexivity|]. split; [exact A|apply turns_refl].
Qed.
Lemma raise_own st x x' slot slot' v h : queue_at h st x -> raise (code f) x slot v = Ok (x', slot') ->
  exists h', h_raise code q slot v (calls x) h = Ok ((slot', calls x'), h') /\ queue_at h' st x' /\ turns (queue_cells st) (queue_cells st) h h'.
Proof. intros A H. unfold h_raise. rewrite (q_rounds _ _ _ _ A). exact (raise_loop_own st _ _ _ _ _ _ _ A H). Qed.

Lemma lower_loop_own st : forall fuel x x' slot v h, queue_at h st x -> lower_loop (code f) fuel x slot v = Ok x' ->
  exists h', h_lower_loop code fuel q slot v (calls x) h = Ok (calls x', h') /\ queue_at h' st x' /\ turns (queue_cells st) (queue_cells st) h h'.
Proof.
  induction fuel as [|fuel IH]; intros x x' slot v h A H; cbn [lower_loop] in H; [discriminate|]. cbn [h_lower_loop].
  rewrite (q_capacity _ _ _ _ A). destruct (u64 (slot * 2 + 1) >=? capacity x); [exact (assign_own h st x x' slot v A H)|].
  set (left := u64 (slot * 2 + 1)) in *. set (right := u64 (left + 1)) in *.
  destruct (if right >=? capacity x then Ok left else x0 <- rd (storage x) left ;; y <- rd (storage x) right ;; Ok (if code f x0 y <? 0 then left else right))
    as [br| | |] eqn:EB; cbn [bind] in H; try discriminate.
  assert (HB : (if right >=? capacity x then ret left
               else let! x0 := stored q left in let! y := stored q right in let! c := compare code q x0 y in ret (if c <? 0 then left else right)) h = Ok (br, h)).
  { destruct (right >=? capacity x); [injection EB as <-; reflexivity|].
    destruct (rd (storage x) left) as [a| | |] eqn:R1; cbn [bind] in EB; try discriminate.
    destruct (rd (storage x) right) as [b| | |] eqn:R2; cbn [bind] in EB; try discriminate. injection EB as <-.
    rewrite (q_stored _ _ _ _ _ _ A R1). rewrite (q_stored _ _ _ _ _ _ A R2). rewrite (q_compare _ _ _ _ _ _ A). reflexivity. }
  rewrite (bnd_Ok _ _ _ _ _ HB). clear HB EB.
  destruct (rd (storage x) br) as [y| | |] eqn:R; cbn [bind] in H; try discriminate.
  rewrite (q_stored _ _ _ _ _ _ A R). rewrite (q_compare _ _ _ _ _ _ A). destruct (code f v y <=? 0); [exact (assign_own h st x x' slot v A H)|].
  rewrite (q_stored _ _ _ _ _ _ A R). destruct (assign x slot y) as [x1| | |] eqn:As; cbn [bind] in H; try discriminate.
  destruct (assign_own h st x x1 slot y A As) as (h1 & E1 & A1 & T1). rewrite (bnd_Ok _ _ _ _ _ E1).
  destruct (IH _ _ _ _ _ A1 H) as (h2 & E2 & A2 & T2). exists h2. split; [exact E2|]. split; [exact A2|]. eapply turns_trans; eauto.
Qed.
Lemma lower_own st x x' slot v h : queue_at h st x -> lower (code f) x slot v = Ok x' ->
  exists h', h_lower code q slot v (calls x) h = Ok (calls x', h') /\ queue_at h' st x' /\ turns (queue_cells st) (queue_cells st) h h'.
Proof. intros A H. unfold h_lower. rewrite (q_rounds _ _ _ _ A). exact (lower_loop_own st _ _ _ _ _ _ A H). Qed.

Lemma set_max h st x m : queue_at h st x -> exists h', set_field q PQ_max m h = Ok (tt, h') /\
  queue_at h' st (Priorq (storage x) (capacity x) m (calls x)) /\ turns (queue_cells st) (queue_cells st) h h'.
Proof. intros A. eexists. split; [apply (set_field_ok q PQ_max _ [f; st; capacity x; m] m h (proj1 A)); reflexivity|]. apply (queue_put h st x); exact A. Qed.
Lemma set_capacity h st x c : queue_at h st x -> exists h', set_field q PQ_capacity c h = Ok (tt, h') /\
  queue_at h' st (Priorq (storage x) c (max_capacity x) (calls x)) /\ turns (queue_cells st) (queue_cells st) h h'.
Proof. intros A. eexists. split; [apply (set_field_ok q PQ_capacity _ [f; st; c; max_capacity x] c h (proj1 A)); reflexivity|]. apply (queue_put h st x); exact A. Qed.

Lemma grow_own h st x n : queue_at h st x -> exists st' h',
  (let! s := h_realloc junk st n in set_field q PQ_storage s) h = Ok (tt, h') /\
  queue_at h' st' (Priorq (realloc_slots junk (storage x) n) (capacity x) (max_capacity x) (calls x)) /\
  turns (queue_cells st) (queue_cells st') h h'.
Proof.
  intros (G & S). pose proof (get_nonnull _ _ _ G) as Nq. unfold h_realloc.
  assert (F : exists h1, (forall c, (if st =? 0 then alloc (CSlots (realloc_slots junk [] n)) else
      let! b := ld_slots st in do! free st in alloc (CSlots (realloc_slots junk b n))) h = c <-> alloc (CSlots (realloc_slots junk (storage x) n)) h1 = c) /\
      (forall y, get h1 y = if In_dec Z.eq_dec y (queue_cells st) then (if y =? q then get h y else None) else get h y)).
  { destruct S as [(-> & ->)|(S & N)].
    - exists h. split; [intros c; reflexivity|]. intros y. destruct (In_dec Z.eq_dec y (queue_cells 0)) as [Y|]; [|reflexivity].
      apply in_cells in Y. destruct Y as [->|(Y & _)]; [rewrite Z.eqb_refl; reflexivity|congruence].
    - pose proof (get_nonnull _ _ _ S) as Ns. exists (drop_cell h st). split.
      + intros c. rewrite (proj2 (Z.eqb_neq st 0)) by exact Ns. rewrite (step_ld_slots _ _ _ _ S). rewrite (step_free _ _ _ _ S). reflexivity.
      + intros y. rewrite get_drop. destruct (In_dec Z.eq_dec y (queue_cells st)) as [Y|Y]; rewrite in_cells in Y.
        * destruct Y as [->|(_ & ->)].
          -- rewrite Z.eqb_refl. destruct (Z.eqb_spec q st); [congruence|reflexivity].
          -- rewrite Z.eqb_refl. destruct (Z.eqb_spec st q); [congruence|reflexivity].
        * destruct (Z.eqb_spec y st); [subst; exfalso; apply Y; right; auto|reflexivity]. }
  destruct F as (h1 & F1 & F2).
  destruct (alloc_spec (CSlots (realloc_slots junk (storage x) n)) h1) as (s & h2 & E & Ns & Fs & G2).
  apply F1 in E. rewrite (bnd_Ok _ _ _ _ _ E).
  assert (Gq1 : get h1 q = Some (CSlots [f; st; capacity x; max_capacity x])).
  { rewrite F2. destruct (In_dec Z.eq_dec q (queue_cells st)) as [_|Y]; [rewrite Z.eqb_refl; exact G|exact G]. }
  assert (Nqs : q <> s) by congruence.
  assert (Gq2 : get h2 q = Some (CSlots [f; st; capacity x; max_capacity x])).
  { rewrite G2. destruct (Z.eqb_spec q s); [congruence|exact Gq1]. }
  exists s, (put_cell h2 q (CSlots [f; s; capacity x; max_capacity x])).
  split; [apply (set_field_ok q PQ_storage _ [f; s; capacity x; max_capacity x] s h2 Gq2); reflexivity|]. split.
  - split; [rewrite get_put, Z.eqb_refl by exact Nq; reflexivity|]. right. split; [|exact Nqs].
    rewrite get_put by exact Nq. destruct (Z.eqb_spec s q); [congruence|]. rewrite G2, Z.eqb_refl. reflexivity.
  - split; [|split].
    + intros y X Y. pose proof X as X'. rewrite in_cells in X', Y. rewrite get_put by exact Nq. destruct (Z.eqb_spec y q); [subst; tauto|].
      rewrite G2. destruct (Z.eqb_spec y s); [subst; exfalso; apply Y; right; auto|]. rewrite F2.
      destruct (In_dec Z.eq_dec y (queue_cells st)); [tauto|reflexivity].
    + intros y X Y. pose proof Y as Y'. rewrite in_cells in X, Y'. destruct X as [->|(_ & ->)]; [tauto|]. rewrite F2 in Fs.
      destruct (In_dec Z.eq_dec s (queue_cells st)); [tauto|exact Fs].
    + intros y X Y. pose proof X as X'. rewrite in_cells in X', Y. rewrite get_put by exact Nq. destruct (Z.eqb_spec y q); [subst; tauto|].
      rewrite G2. destruct (Z.eqb_spec y s); [subst; exfalso; apply Y; right; auto|]. rewrite F2.
      destruct (In_dec Z.eq_dec y (queue_cells st)); [|tauto]. destruct (Z.eqb_spec y q); [congruence|reflexivity].
Qed.

Lemma enqueue_own h st x x' v : queue_at h st x -> calls x = [] -> priorq_enqueue (code f) junk x v = Ok x' ->
  exists st' h', h_priorq_enqueue code junk q v h = Ok (calls x', h') /\ queue_at h' st' x' /\ turns (queue_cells st) (queue_cells st') h h'.
Proof.
  intros A C H. unfold h_priorq_enqueue. rewrite (q_capacity _ _ _ _ A). rewrite (q_max _ _ _ _ A). unfold priorq_enqueue in H.
  assert (G : exists x1 st1 h1, (if capacity x =? max_capacity x then n <- round_loop 66 (u64 (capacity x + 1)) 1 ;;
          Ok (Priorq (realloc_slots junk (storage x) n) (capacity x) n (calls x)) else Ok x) = Ok x1 /\ calls x1 = [] /\
    (if capacity x =? max_capacity x then
         let! n := lift (round_loop 66 (u64 (capacity x + 1)) 1) in
         do! set_field q PQ_max n in
         let! s := field q PQ_storage in
         let! m := field q PQ_max in
         let! s := h_realloc junk s m in
         set_field q PQ_storage s
       else ret tt) h = Ok (tt, h1) /\ queue_at h1 st1 x1 /\ turns (queue_cells st) (queue_cells st1) h h1).
  { destruct (capacity x =? max_capacity x).
    - destruct (round_loop 66 (u64 (capacity x + 1)) 1) as [n| | |] eqn:R; cbn [bind] in H; try discriminate. rewrite step_lift.
      destruct (set_max h st x n A) as (h1 & E1 & A1 & T1). rewrite (bnd_Ok _ _ _ _ _ E1). rewrite (q_storage _ _ _ _ A1). rewrite (q_max _ _ _ _ A1).
      destruct (grow_own h1 st _ n A1) as (st2 & h2 & E2 & A2 & T2). cbn [storage capacity max_capacity calls] in *.
      eexists _, st2, h2. split; [reflexivity|]. split; [exact C|]. split; [exact E2|]. split; [exact A2|]. eapply turns_trans; eauto.
    - exists x, st, h. split; [reflexivity|]. split; [exact C|]. split; [reflexivity|]. split; [exact A|apply turns_refl]. }
  destruct G as (x1 & st1 & h1 & E1 & C1 & M1 & A1 & T1). rewrite E1 in H. cbn [bind] in H. rewrite (bnd_Ok _ _ _ _ _ M1). clear E1 M1.
  rewrite (q_capacity _ _ _ _ A1). destruct (set_capacity h1 st1 x1 (u64 (capacity x1 + 1)) A1) as (h2 & E2 & A2 & T2). rewrite (bnd_Ok _ _ _ _ _ E2).
  destruct (raise (code f) _ _ _) as [[x3 slot]| | |] eqn:R; cbn [bind] in H; try discriminate.
  destruct (raise_own st1 _ _ _ _ _ _ A2 R) as (h3 & E3 & A3 & T3). cbn [calls] in E3. rewrite C1 in E3. rewrite (bnd_Ok _ _ _ _ _ E3). cbn [fst snd].
  destruct (assign_own h3 st1 x3 x' slot v A3 H) as (h4 & E4 & A4 & T4). exists st1, h4. split; [exact E4|]. split; [exact A4|].
  eapply turns_trans; [exact T1|]. eapply turns_trans; [exact T2|]. eapply turns_trans; [exact T3|exact T4].
Qed.

Lemma last_own {B} (g : Z -> M B) h st x v : queue_at h st x -> rd (storage x) (capacity (shrink x)) = Ok v ->
  exists h', bnd (h_last q) g h = g v h' /\ queue_at h' st (shrink x) /\ turns (queue_cells st) (queue_cells st) h h'.
Proof.
  intros A R. unfold h_last. rewrite bnd_assoc, (q_capacity _ _ _ _ A). destruct (set_capacity h st x (u64 (capacity x - 1)) A) as (h1 & E1 & A1 & T1).
  exists h1. rewrite bnd_assoc, (bnd_Ok _ _ _ _ _ E1). rewrite bnd_assoc, (q_capacity _ _ _ _ A1). split; [|split; [exact A1|exact T1]].
  apply (q_stored g h1 st _ _ v A1). exact R.
Qed.

Lemma dequeue_own h st x x' v : queue_at h st x -> calls x = [] -> priorq_dequeue (code f) x = Ok (x', v) ->
  exists h', h_priorq_dequeue code q h = Ok ((v, calls x'), h') /\ queue_at h' st x' /\ turns (queue_cells st) (queue_cells st) h h'.
Proof.
  intros A C H. unfold h_priorq_dequeue. rewrite (q_capacity _ _ _ _ A). unfold priorq_dequeue in H.
  destruct (capacity x =? 0). { injection H as <- <-. rewrite C. exists h. split; [reflexivity|]. split; [exact A|apply turns_refl]. }
  destruct (capacity x =? 1).
  { change (storage (shrink x)) with (storage x) in H. destruct (rd (storage x) (capacity (shrink x))) as [y| | |] eqn:R; cbn [bind] in H; try discriminate. injection H as <- <-.
    edestruct (last_own (fun y => ret (y, @nil (Z * Z))) h st x y A R) as (h1 & E1 & A1 & T1). exists h1. rewrite E1. change (calls (shrink x)) with (calls x). rewrite C. auto. }
  destruct (rd (storage x) 0) as [y| | |] eqn:R0; cbn [bind] in H; try discriminate. rewrite (q_stored _ _ _ _ _ _ A R0).
  change (storage (shrink x)) with (storage x) in H. destruct (rd (storage x) (capacity (shrink x))) as [z| | |] eqn:R; cbn [bind] in H; try discriminate.
  destruct (lower (code f) (shrink x) 0 z) as [x2| | |] eqn:L; cbn [bind] in H; try discriminate. injection H as <- <-.
  edestruct (last_own (fun last => let! l := h_lower code q 0 last [] in ret (y, l)) h st x z A R) as (h1 & E1 & A1 & T1). rewrite E1.
  destruct (lower_own st _ _ _ _ _ A1 L) as (h2 & E2 & A2 & T2). change (calls (shrink x)) with (calls x) in E2. rewrite C in E2.
  exists h2. rewrite (bnd_Ok _ _ _ _ _ E2). split; [reflexivity|]. split; [exact A2|]. eapply turns_trans; eauto.
Qed.
Lemma peek_own h st x v : queue_at h st x -> priorq_peek x = Ok v -> h_priorq_peek q h = Ok (v, h).
Proof.
  intros A H. unfold h_priorq_peek, h_priorq_size. rewrite (q_capacity _ _ _ _ A). unfold priorq_peek, priorq_empty, priorq_size in H.
  destruct (capacity x =? 0); [injection H as <-; reflexivity|]. exact (q_stored' _ _ _ _ _ A H).
Qed.
Lemma pop_own h st x x' v : queue_at h st x -> calls x = [] -> priorq_pop x = Ok (x', v) ->
  exists h', h_priorq_pop q h = Ok (v, h') /\ calls x' = [] /\ queue_at h' st x' /\ turns (queue_cells st) (queue_cells st) h h'.
Proof.
  intros A C H. unfold h_priorq_pop, h_priorq_size. rewrite (q_capacity _ _ _ _ A). unfold priorq_pop, priorq_empty, priorq_size in H.
  destruct (capacity x =? 0). { injection H as <- <-. exists h. split; [reflexivity|]. split; [exact C|]. split; [exact A|apply turns_refl]. }
  change (storage (shrink x)) with (storage x) in H. destruct (rd (storage x) (capacity (shrink x))) as [y| | |] eqn:R; cbn [bind] in H; try discriminate. injection H as <- <-.
  destruct (last_own ret h st x y A R) as (h1 & E1 & A1 & T1). exists h1. split; [|split; [exact C|auto]].
  transitivity (bnd (h_last q) ret h); [unfold bnd; destruct (h_last q h) as [[]| | |]; reflexivity|exact E1].
Qed.
Lemma remove_own h st x x' loc v : queue_at h st x -> calls x = [] -> priorq_remove (code f) x loc = Ok (x', v) ->
  exists h', h_priorq_remove code q loc h = Ok ((v, calls x'), h') /\ queue_at h' st x' /\ turns (queue_cells st) (queue_cells st) h h'.
Proof.
  intros A C H. unfold h_priorq_remove. unfold priorq_remove in H.
  destruct (rd (storage x) loc) as [y| | |] eqn:R0; cbn [bind] in H; try discriminate. rewrite (q_stored _ _ _ _ _ _ A R0).
  change (storage (shrink x)) with (storage x) in H. destruct (rd (storage x) (capacity (shrink x))) as [z| | |] eqn:R; cbn [bind] in H; try discriminate.
  destruct (raise (code f) (shrink x) loc z) as [[x2 slot]| | |] eqn:Ra; cbn [bind] in H; try discriminate.
  destruct (lower (code f) x2 slot z) as [x3| | |] eqn:L; cbn [bind] in H; try discriminate. injection H as <- <-.
  edestruct (last_own (fun other => let! r := h_raise code q loc other [] in let! l := h_lower code q (fst r) other (snd r) in ret (y, l)) h st x z A R) as (h1 & E1 & A1 & T1). rewrite E1.
  destruct (raise_own st _ _ _ _ _ _ A1 Ra) as (h2 & E2 & A2 & T2). change (calls (shrink x)) with (calls x) in E2. rewrite C in E2. rewrite (bnd_Ok _ _ _ _ _ E2). cbn [fst snd].
  destruct (lower_own st _ _ _ _ _ A2 L) as (h3 & E3 & A3 & T3). exists h3. rewrite (bnd_Ok _ _ _ _ _ E3). split; [reflexivity|]. split; [exact A3|].
  eapply turns_trans; [exact T1|]. eapply turns_trans; eauto.
Qed.
Lemma destroy_queue_own h st x : queue_at h st x -> exists h', h_destroy_priority_queue q h = Ok (tt, h') /\ turns (queue_cells st) [] h h'.
Proof.
  intros A. unfold h_destroy_priority_queue. rewrite (q_storage _ _ _ _ A). destruct A as (G & S). pose proof (get_nonnull _ _ _ G) as Nq.
  destruct S as [(-> & _)|(S & N)].
  - change (fsfree 0) with (@ret unit tt). rewrite step_ret. exists (drop_cell h q). split; [exact (free_ok _ _ _ G)|].
    split; [|split].
    + intros y X _. rewrite in_cells in X. rewrite get_drop. destruct (Z.eqb_spec y q); [subst; tauto|reflexivity].
    + intros y [].
    + intros y X _. apply in_cells in X. destruct X as [->|(X & _)]; [rewrite get_drop, Z.eqb_refl; reflexivity|congruence].
  - rewrite (bnd_Ok _ _ _ _ _ (free_ok _ _ _ S)).
    assert (G' : get (drop_cell h st) q = Some (CSlots [f; st; capacity x; max_capacity x])). { rewrite get_drop. destruct (Z.eqb_spec q st); [congruence|exact G]. }
    exists (drop_cell (drop_cell h st) q). split; [exact (free_ok _ _ _ G')|]. pose proof (get_nonnull _ _ _ S) as Ns. split; [|split].
    + intros y X _. rewrite in_cells in X. rewrite !get_drop. destruct (Z.eqb_spec y q); [subst; tauto|]. destruct (Z.eqb_spec y st); [subst; exfalso; apply X; right; auto|reflexivity].
    + intros y [].
    + intros y X _. apply in_cells in X. rewrite !get_drop. destruct X as [->|(_ & ->)]; rewrite Z.eqb_refl; [reflexivity|]. destruct (st =? q); reflexivity.
Qed.
End Queues.

Lemma make_queue_own junk f h : exists q h', h_make_priority_queue junk f h = Ok (q, h') /\ queue_at f q h' 0 make_priority_queue /\ turns [] (queue_cells q 0) h h'.
Proof.
  unfold h_make_priority_queue. destruct (alloc_spec (CSlots (fresh_block junk 4)) h) as (q & h1 & E1 & Nq & Fq & G1). rewrite (bnd_Ok _ _ _ _ _ E1).
  assert (Gq : get h1 q = Some (CSlots (fresh_block junk 4))) by (rewrite G1, Z.eqb_refl; reflexivity).
  assert (P : forall h c, get (put_cell h q c) q = Some c) by (intros; rewrite get_put, Z.eqb_refl by exact Nq; reflexivity).
  erewrite step_set_field; [|exact Gq|reflexivity].
  erewrite step_set_field; [|apply P|reflexivity].
  erewrite step_set_field; [|apply P|reflexivity].
  erewrite step_set_field; [|apply P|reflexivity].
  eexists q, _. split; [reflexivity|]. split.
  - split; [apply P|]. left. split; reflexivity.
  - split; [|split].
    + intros x _ X. rewrite in_cells in X. rewrite !get_put by exact Nq. destruct (Z.eqb_spec x q); [subst; tauto|]. rewrite G1. destruct (Z.eqb_spec x q); [congruence|reflexivity].
    + intros x X _. apply in_cells in X. destruct X as [->|(X & _)]; [exact Fq|congruence].
    + intros x [].
Qed.
Lemma size_own f q h st x : queue_at f q h st x -> h_priorq_size q h = Ok (capacity x, h).
Proof.
  intros A. unfold h_priorq_size. pose proof (q_capacity f q (fun c => ret c) h st x A) as E. unfold bnd in E.
  destruct (field q PQ_capacity h) as [[c h1]| | |]; unfold ret in E; congruence.
Qed.

(** ** All objects together *)
Record entry := Entry { e_obj : object; e_ptr : Z; e_cells : list Z }.
Definition obj_ok (h : heap) (e : entry) : Prop :=
  match e_obj e with
  | Gone => e_cells e = []
  | Set_ s => exists d, e_cells e = [e_ptr e; d] /\ set_at h (e_ptr e) d s
  | Queue f q => calls q = [] /\ exists st, e_cells e = queue_cells (e_ptr e) st /\ queue_at f (e_ptr e) h st q
  | Bytes a => exists d, e_cells e = [e_ptr e; d] /\ ByteHeap.bytes_at h (e_ptr e) d a
  end.
Definition all_cells (es : list entry) : list Z := concat (map e_cells es).
Definition world (h0 h : heap) (es : list entry) : Prop :=
  Forall (obj_ok h) es /\ NoDup (all_cells es) /\ (forall x, In x (all_cells es) -> get h0 x = None) /\ same_outside (all_cells es) h0 h.

Lemma obj_cells h e : obj_ok h e -> NoDup (e_cells e) /\ (length (e_cells e) <= 2)%nat /\ (forall x, In x (e_cells e) -> get h x <> None).
Proof.
  unfold obj_ok. destruct (e_obj e) as [|s|f q|a].
  - intros ->. split; [constructor|]. split; [simpl; lia|intros ? []].
  - intros (d & -> & (G1 & G2 & N)). split; [constructor; [intros [X|[]]; congruence|repeat constructor; intros []]|]. split; [simpl; lia|].
    intros x [<-|[<-|[]]]; congruence.
  - intros (_ & st & -> & (G & S)). split; [|split].
    + unfold queue_cells. destruct (Z.eqb_spec st 0) as [E|E]; [repeat constructor; intros []|].
      destruct S as [(S & _)|(_ & N)]; [congruence|]. constructor; [intros [X|[]]; congruence|repeat constructor; intros []].
    + unfold queue_cells. destruct (st =? 0); simpl; lia.
    + intros x X. apply in_cells in X. destruct X as [->|(E & ->)]; [congruence|]. destruct S as [(S & _)|(S & _)]; congruence.
  - intros (d & -> & (G1 & G2 & N)). split; [constructor; [intros [X|[]]; congruence|repeat constructor; intros []]|]. split; [simpl; lia|].
    intros x [<-|[<-|[]]]; congruence.
Qed.
Lemma obj_frame h h' e : obj_ok h e -> (forall x, In x (e_cells e) -> get h' x = get h x) -> obj_ok h' e.
Proof.
  unfold obj_ok. destruct (e_obj e) as [|s|f q|a]; [auto| | |].
  - intros (d & E & (G1 & G2 & N)) F. exists d. split; [exact E|]. rewrite E in F. split; [rewrite F; [exact G1|left; reflexivity]|].
    split; [rewrite F; [exact G2|right; left; reflexivity]|exact N].
  - intros (C & st & E & (G & S)) F. split; [exact C|]. exists st. split; [exact E|]. rewrite E in F. split.
    + rewrite F; [exact G|apply in_cells; left; reflexivity].
    + destruct S as [S|(S & N)]; [left; exact S|right]. split; [|exact N]. rewrite F; [exact S|]. apply in_cells. right. split; [eapply get_nonnull; exact S|reflexivity].
  - intros (d & E & (G1 & G2 & N)) F. exists d. split; [exact E|]. rewrite E in F. split; [rewrite F; [exact G1|left; reflexivity]|].
    split; [rewrite F; [exact G2|right; left; reflexivity]|exact N].
Qed.

Lemma all_cells_app es es' : all_cells (es ++ es') = all_cells es ++ all_cells es'.
Proof. unfold all_cells. rewrite map_app, concat_app. reflexivity. Qed.
Lemma all_cells_mid pre e post : all_cells (pre ++ e :: post) = all_cells pre ++ e_cells e ++ all_cells post.
Proof. rewrite all_cells_app. reflexivity. Qed.
Lemma all_alloc h es : Forall (obj_ok h) es -> forall x, In x (all_cells es) -> get h x <> None.
Proof.
  induction 1 as [|e es H _ IH]; [intros ? []|]. intros x X. change (In x (e_cells e ++ all_cells es)) in X. apply in_app_or in X.
  destruct X as [X|X]; [|auto]. apply (obj_cells _ _ H). exact X.
Qed.
Lemma all_frame h h' es : Forall (obj_ok h) es -> (forall x, In x (all_cells es) -> get h' x = get h x) -> Forall (obj_ok h') es.
Proof.
  induction 1 as [|e es H _ IH]; intros F; constructor.
  - eapply obj_frame; [exact H|]. intros x X. apply F. apply in_or_app. left; exact X.
  - apply IH. intros x X. apply F. apply in_or_app. right; exact X.
Qed.

Lemma world_step h0 h h' pre o p c post o' c' : world h0 h (pre ++ Entry o p c :: post) -> turns c c' h h' -> obj_ok h' (Entry o' p c') ->
  world h0 h' (pre ++ Entry o' p c' :: post).
Proof.
  intros (Ok1 & ND & FR & SO) (T1 & T2 & T3) Ok2.
  apply Forall_app in Ok1. destruct Ok1 as (OkA & OkB). inversion OkB as [|? ? OkE OkC]. subst.
  rewrite all_cells_mid in ND, FR, SO. cbn [e_cells] in ND, FR, SO.
  apply nodup_app_iff in ND. destruct ND as (NDa & NDb & NDab). apply nodup_app_iff in NDb. destruct NDb as (NDc & NDp & NDcp).
  assert (NA : forall x, In x (all_cells pre) -> ~ In x c). { intros x X Y. apply (NDab x X). apply in_or_app. left; exact Y. }
  assert (NP : forall x, In x (all_cells post) -> ~ In x c). { intros x X Y. exact (NDcp x Y X). }
  assert (RA : forall x, In x (all_cells pre) -> ~ In x c'). { intros x X Y. apply (all_alloc _ _ OkA x X). apply T2; auto. }
  assert (RP : forall x, In x (all_cells post) -> ~ In x c'). { intros x X Y. apply (all_alloc _ _ OkC x X). apply T2; auto. }
  split; [|split; [|split]].
  - apply Forall_app. split; [apply (all_frame h); [exact OkA|]; intros x X; apply T1; auto|].
    constructor; [exact Ok2|]. apply (all_frame h); [exact OkC|]. intros x X; apply T1; auto.
  - rewrite all_cells_mid. cbn [e_cells]. apply nodup_app_iff. split; [exact NDa|]. split.
    + apply nodup_app_iff. split; [exact (proj1 (obj_cells _ _ Ok2))|]. split; [exact NDp|]. intros x X Y. exact (RP x Y X).
    + intros x X Y. apply in_app_or in Y. destruct Y as [Y|Y]; [exact (RA x X Y)|]. apply (NDab x X). apply in_or_app. right; exact Y.
  - intros x. rewrite all_cells_mid. cbn [e_cells]. rewrite !in_app_iff. intros [X|[X|X]].
    + apply FR. rewrite !in_app_iff. tauto.
    + destruct (in_dec Z.eq_dec x c) as [Y|Y]; [apply FR; rewrite !in_app_iff; tauto|].
      rewrite <- SO; [apply T2; assumption|]. rewrite !in_app_iff. intros [Z1|[Z1|Z1]]; [exact (RA x Z1 X)|exact (Y Z1)|exact (RP x Z1 X)].
    + apply FR. rewrite !in_app_iff. tauto.
  - intros x. rewrite all_cells_mid. cbn [e_cells]. rewrite !in_app_iff. intros X.
    destruct (in_dec Z.eq_dec x c) as [Y|Y].
    + rewrite T3 by tauto. symmetry. apply FR. rewrite !in_app_iff. tauto.
    + rewrite T1 by tauto. apply SO. rewrite !in_app_iff. tauto.
Qed.
Lemma world_more h0 h es p : world h0 h es -> world h0 h (es ++ [Entry Gone p []]).
Proof.
  intros (A & B & C & D). assert (E : all_cells (es ++ [Entry Gone p []]) = all_cells es). { rewrite all_cells_app. apply app_nil_r. }
  unfold world. rewrite E. split; [|auto]. apply Forall_app. split; [exact A|]. repeat constructor.
Qed.

Lemma pick {A B} (g : A -> B) k : forall es b, nth_error (map g es) k = Some b ->
  exists pre e post, es = pre ++ e :: post /\ g e = b /\ length pre = k.
Proof.
  induction k as [|k IH]; intros [|e es] b H; cbn [map nth_error] in H; try discriminate.
  - exists [], e, es. split; [reflexivity|]. split; [congruence|reflexivity].
  - destruct (IH es b H) as (pre & e' & post & -> & E & L). exists (e :: pre), e', post. split; [reflexivity|]. split; [exact E|]. simpl. congruence.
Qed.
Lemma put_mid pre e post o : put_object (length pre) o (map e_obj (pre ++ e :: post)) = map e_obj (pre ++ Entry o (e_ptr e) [] :: post).
Proof.
  unfold put_object. rewrite !map_app. cbn [map]. rewrite <- (map_length e_obj pre). f_equal.
  - rewrite firstn_app, firstn_all, Nat.sub_diag. cbn [firstn]. apply app_nil_r.
  - cbn [e_obj]. f_equal. rewrite skipn_app. rewrite skipn_all2 by lia. cbn [app]. replace (S (length (map e_obj pre)) - length (map e_obj pre))%nat with 1%nat by lia. reflexivity.
Qed.
Lemma ptr_mid pre e post k : length pre = k -> nth_error (map e_ptr (pre ++ e :: post)) k = Some (e_ptr e).
Proof. intros <-. rewrite map_app. cbn [map]. rewrite nth_error_app2; rewrite map_length; [|lia]. rewrite Nat.sub_diag. reflexivity. Qed.

Definition step_ok (code : Z -> Z -> Z -> Z) (junk : nat -> Z) (c : call) (h0 h : heap) (es : list entry) (v : seen) (os : list object) : Prop :=
  exists h' es', together code junk c (map e_ptr es) h = Ok ((v, map e_ptr es'), h') /\ map e_obj es' = os /\ world h0 h' es'.

Lemma object_step (h0 h h' : heap) pre o p c post o' c' (os : list object) :
  world h0 h (pre ++ Entry o p c :: post) -> turns c c' h h' -> obj_ok h' (Entry o' p c') ->
  put_object (length pre) o' (map e_obj (pre ++ Entry o p c :: post)) = os ->
  exists es', map e_ptr es' = map e_ptr (pre ++ Entry o p c :: post) /\ map e_obj es' = os /\ world h0 h' es'.
Proof.
  intros W T O E. exists (pre ++ Entry o' p c' :: post). split; [|split].
  - rewrite !map_app. reflexivity.
  - rewrite <- E, put_mid. rewrite !map_app. reflexivity.
  - eapply world_step; eauto.
Qed.

Ltac object_of H name := 
  unfold a_set, a_queue, a_bytes in H;
  match type of H with context [nth_error ?os ?k] => destruct (nth_error os k) as [[|?|? ?|?]|] eqn:name; cbn [bind] in H; try discriminate end.

(** A buffer of the caller stays as it is. *)
Lemma caller_readable p h d s : ByteHeap.readable p h d (caller s) s.
Proof. intros d' h' _. reflexivity. Qed.
Lemma bytes_step_own junk p h d a o a' v : ByteHeap.bytes_at h p d a -> bytes_step junk a o = Ok (a', v) ->
  exists d' h', h_bytes_step junk p o h = Ok (v, h') /\ ByteHeap.bytes_at h' p d' a' /\ turns [p; d] [p; d'] h h'.
Proof.
  intros A H. destruct o as [b|s|pos b|pos s|n c| |len cb]; cbn [bytes_step ByteArraySpec.step h_bytes_step] in *.
  - destruct (ByteArrayModel.byte_array_append junk a b (zlen b)) as [[a1 ok]| | |] eqn:E; cbn [bind] in H; try discriminate. injection H as <- <-.
    destruct (ByteHeap.append_own junk p h d a (caller b) b _ a1 ok A (caller_readable _ _ _ _) E) as (d' & h' & E' & R). rewrite (bnd_Ok _ _ _ _ _ E'). exists d', h'. split; [reflexivity|exact R].
  - destruct (ByteArrayModel.byte_array_append_string junk a (s ++ [0])) as [[a1 ok]| | |] eqn:E; cbn [bind] in H; try discriminate. injection H as <- <-.
    destruct (ByteHeap.append_string_own junk p h d a (caller (s ++ [0])) _ a1 ok A (caller_readable _ _ _ _) E) as (d' & h' & E' & R). rewrite (bnd_Ok _ _ _ _ _ E'). exists d', h'. split; [reflexivity|exact R].
  - destruct (ByteArrayModel.byte_array_copy junk a pos b (zlen b)) as [[a1 ok]| | |] eqn:E; cbn [bind] in H; try discriminate. injection H as <- <-.
    destruct (ByteHeap.copy_own junk p h d a pos (caller b) b _ a1 ok A (caller_readable _ _ _ _) E) as (d' & h' & E' & R). rewrite (bnd_Ok _ _ _ _ _ E'). exists d', h'. split; [reflexivity|exact R].
  - destruct (ByteArrayModel.byte_array_copy_string junk a pos (s ++ [0])) as [[a1 ok]| | |] eqn:E; cbn [bind] in H; try discriminate. injection H as <- <-.
    destruct (ByteHeap.copy_string_own junk p h d a pos (caller (s ++ [0])) _ a1 ok A (caller_readable _ _ _ _) E) as (d' & h' & E' & R). rewrite (bnd_Ok _ _ _ _ _ E'). exists d', h'. split; [reflexivity|exact R].
  - destruct (ByteArrayModel.byte_array_resize junk a n c) as [[a1 ok]| | |] eqn:E; cbn [bind] in H; try discriminate. injection H as <- <-.
    destruct (ByteHeap.resize_own junk p h d a n c a1 ok A E) as (d' & h' & E' & R). rewrite (bnd_Ok _ _ _ _ _ E'). exists d', h'. split; [reflexivity|exact R].
  - destruct (ByteArrayModel.byte_array_clear a) as [a1| | |] eqn:E; cbn [bind] in H; try discriminate. injection H as <- <-.
    destruct (ByteHeap.clear_own p h d a a1 A E) as (h' & E' & R). rewrite (bnd_Ok _ _ _ _ _ E'). exists d, h'. split; [reflexivity|exact R].
  - destruct (ByteArrayModel.byte_array_append_stream junk a cb len) as [[[a1 n] count]| | |] eqn:E; cbn [bind] in H; try discriminate. injection H as <- <-.
    destruct (ByteHeap.stream_own junk p h d a cb len a1 n count A E) as (d' & h' & E' & R). rewrite (bnd_Ok _ _ _ _ _ E'). exists d', h'. split; [reflexivity|exact R].
Qed.
(** The bytes of another array stay as they are. *)
Lemma other_readable p h d dj b i s : get h dj = Some (CSlots b) -> dj <> p -> dj <> d -> from b i = Ok s ->
  ByteHeap.readable p h d (let! b := ld_slots dj in lift (from b i)) s.
Proof.
  intros G N1 N2 E d' h' (T1 & T2 & _). assert (G' : get h' dj = Some (CSlots b)).
  { rewrite T1; [exact G|cbn [In]; intuition congruence|]. intros [X|[X|[]]]; [congruence|]. subst d'.
    rewrite T2 in G; [discriminate|right; left; reflexivity|cbn [In]; intuition congruence]. }
  rewrite (step_ld_slots _ _ _ _ G'). unfold lift. rewrite E. reflexivity.
Qed.
Lemma apart es : NoDup (all_cells es) -> forall k j e e' x, nth_error es k = Some e -> nth_error es j = Some e' -> k <> j -> In x (e_cells e) -> ~ In x (e_cells e').
Proof.
  induction es as [|y es IH]; intros ND k j e e' x Ek Ej N X Y; [destruct k; discriminate|].
  change (NoDup (e_cells y ++ all_cells es)) in ND. apply nodup_app_iff in ND. destruct ND as (_ & ND & D).
  assert (S : forall e, In e es -> forall x, In x (e_cells e) -> In x (all_cells es)).
  { intros e0 I0 x0 X0. unfold all_cells. apply in_concat. exists (e_cells e0). split; [apply in_map; exact I0|exact X0]. }
  destruct k as [|k], j as [|j]; cbn [nth_error] in Ek, Ej; [congruence| | |].
  - injection Ek as ->. exact (D x X (S _ (nth_error_In _ _ Ej) x Y)).
  - injection Ej as ->. exact (D x Y (S _ (nth_error_In _ _ Ek) x X)).
  - exact (IH ND k j e e' x Ek Ej ltac:(congruence) X Y).
Qed.

Lemma alone_together code junk c h0 h es v os : world h0 h es -> alone code junk c (map e_obj es) = Ok (v, os) -> step_ok code junk c h0 h es v os.
Proof.
  intros W H. unfold step_ok.
  assert (PK : forall k o, nth_error (map e_obj es) k = Some o -> exists pre p cs post, es = pre ++ Entry o p cs :: post /\ length pre = k /\
    obj_ok h (Entry o p cs) /\ (forall B (g : Z -> M B) h1, bnd (pointer k (map e_ptr es)) g h1 = g p h1)).
  { intros k o E. destruct (pick e_obj k es o E) as (pre & [o' p cs] & post & -> & <- & L). exists pre, p, cs, post. split; [reflexivity|]. split; [exact L|]. split.
    - destruct W as (W & _). apply Forall_app in W. destruct W as (_ & W). inversion W. assumption.
    - intros B g h1. unfold pointer. rewrite ptr_mid by exact L. reflexivity. }
  destruct c; cbn [alone] in H; cbn [together].
  - injection H as <- <-. destruct (make_set_ok junk size h) as (s & d & h' & E & A & T). rewrite (bnd_Ok _ _ _ _ _ E).
    exists h', (es ++ [Entry (Set_ (make_intset size)) s [s; d]]). rewrite !map_app. split; [reflexivity|]. split; [reflexivity|].
    eapply (world_step h0 h h' es Gone s [] []); [apply world_more; exact W|exact T|]. exists d. split; [reflexivity|exact A].
  - object_of H En. destruct (PK _ _ En) as (pre & p & cs & post & -> & <- & (d & Ec & A) & PP). cbn [e_cells e_ptr] in *. subst cs.
    destruct (intset_fill s) as [s'| | |] eqn:F; cbn [bind] in H; try discriminate. assert (Ev : v = nothing) by (injection H as <- _; reflexivity). assert (Eo : put_object (length pre) (Set_ s') (map e_obj (pre ++ Entry (Set_ s) p [p; d] :: post)) = os) by congruence.
    rewrite PP. destruct (set_fill_ok p d s s' h A F) as (h' & E & A' & T). rewrite (bnd_Ok _ _ _ _ _ E).
    destruct (object_step h0 h h' pre (Set_ s) p _ post (Set_ s') [p; d] os W T) as (es' & E1 & E2 & W'); [exists d; split; [reflexivity|exact A']|exact Eo|].
    exists h', es'. rewrite <- E1, Ev. auto.
  - object_of H En. destruct (PK _ _ En) as (pre & p & cs & post & -> & <- & (d & Ec & A) & PP). cbn [e_cells e_ptr] in *. subst cs.
    destruct (intset_add s elem) as [s'| | |] eqn:F; cbn [bind] in H; try discriminate. assert (Ev : v = nothing) by (injection H as <- _; reflexivity). assert (Eo : put_object (length pre) (Set_ s') (map e_obj (pre ++ Entry (Set_ s) p [p; d] :: post)) = os) by congruence.
    rewrite PP. destruct (set_add_ok p d s s' elem h A F) as (h' & E & A' & T). rewrite (bnd_Ok _ _ _ _ _ E).
    destruct (object_step h0 h h' pre (Set_ s) p _ post (Set_ s') [p; d] os W T) as (es' & E1 & E2 & W'); [exists d; split; [reflexivity|exact A']|exact Eo|].
    exists h', es'. rewrite <- E1, Ev. auto.
  - object_of H En. destruct (PK _ _ En) as (pre & p & cs & post & -> & <- & (d & Ec & A) & PP). cbn [e_cells e_ptr] in *. subst cs.
    destruct (intset_remove s elem) as [s'| | |] eqn:F; cbn [bind] in H; try discriminate. assert (Ev : v = nothing) by (injection H as <- _; reflexivity). assert (Eo : put_object (length pre) (Set_ s') (map e_obj (pre ++ Entry (Set_ s) p [p; d] :: post)) = os) by congruence.
    rewrite PP. destruct (set_remove_ok p d s s' elem h A F) as (h' & E & A' & T). rewrite (bnd_Ok _ _ _ _ _ E).
    destruct (object_step h0 h h' pre (Set_ s) p _ post (Set_ s') [p; d] os W T) as (es' & E1 & E2 & W'); [exists d; split; [reflexivity|exact A']|exact Eo|].
    exists h', es'. rewrite <- E1, Ev. auto.
  - object_of H En. destruct (PK _ _ En) as (pre & p & cs & post & -> & <- & (d & Ec & A) & PP). cbn [e_cells e_ptr] in *. subst cs.
    destruct (intset_has s elem) as [b| | |] eqn:F; cbn [bind] in H; try discriminate. injection H as <- <-.
    rewrite PP. rewrite (bnd_Ok _ _ _ _ _ (set_has_ok p d s elem b h A F)). eexists h, _. split; [reflexivity|]. split; [reflexivity|exact W].
  - object_of H En. destruct (PK _ _ En) as (pre & p & cs & post & -> & <- & (d & Ec & A) & PP). cbn [e_cells e_ptr] in *. subst cs.
    destruct (intset_find_next s elem hit) as [b| | |] eqn:F; cbn [bind] in H; try discriminate. injection H as <- <-.
    rewrite PP. rewrite (bnd_Ok _ _ _ _ _ (set_next_ok p d s elem hit b h A F)). eexists h, _. split; [reflexivity|]. split; [reflexivity|exact W].
  - object_of H En. destruct (PK _ _ En) as (pre & p & cs & post & -> & <- & (d & Ec & A) & PP). cbn [e_cells e_ptr] in *. subst cs.
    assert (Ev : v = nothing) by (injection H as <- _; reflexivity). assert (Eo : put_object (length pre) Gone (map e_obj (pre ++ Entry (Set_ s) p [p; d] :: post)) = os) by congruence.
    rewrite PP. destruct (destroy_set_ok p d s h A) as (h' & E & T). rewrite (bnd_Ok _ _ _ _ _ E).
    destruct (object_step h0 h h' pre (Set_ s) p _ post Gone [] os W T) as (es' & E1 & E2 & W'); [reflexivity|exact Eo|].
    exists h', es'. rewrite <- E1, Ev. auto.
  - injection H as <- <-. destruct (make_queue_own junk cmp h) as (q & h' & E & A & T). rewrite (bnd_Ok _ _ _ _ _ E).
    exists h', (es ++ [Entry (Queue cmp make_priority_queue) q (queue_cells q 0)]). rewrite !map_app. split; [reflexivity|]. split; [reflexivity|].
    eapply (world_step h0 h h' es Gone q [] []); [apply world_more; exact W|exact T|]. split; [reflexivity|]. exists 0. split; [reflexivity|exact A].
  - object_of H En. destruct (PK _ _ En) as (pre & p & cs & post & -> & <- & (C & st & Ec & A) & PP). cbn [e_cells e_ptr] in *. subst cs.
    destruct (priorq_enqueue (code cmp) junk q value) as [q'| | |] eqn:F; cbn [bind] in H; try discriminate. assert (Ev : v = (0, calls q')) by congruence.
    assert (Eo : put_object (length pre) (Queue cmp (quiet q')) (map e_obj (pre ++ Entry (Queue cmp q) p (queue_cells p st) :: post)) = os) by congruence.
    rewrite PP. destruct (enqueue_own code junk cmp p h st q q' value A C F) as (st' & h' & E & A' & T). rewrite (bnd_Ok _ _ _ _ _ E).
    destruct (object_step h0 h h' pre (Queue cmp q) p _ post (Queue cmp (quiet q')) (queue_cells p st') os W T) as (es' & E1 & E2 & W');
      [split; [reflexivity|]; exists st'; split; [reflexivity|exact A']|exact Eo|].
    exists h', es'. rewrite <- E1, Ev. auto.
  - object_of H En. destruct (PK _ _ En) as (pre & p & cs & post & -> & <- & (C & st & Ec & A) & PP). cbn [e_cells e_ptr] in *. subst cs.
    destruct (priorq_dequeue (code cmp) q) as [[q' x]| | |] eqn:F; cbn [bind] in H; try discriminate. assert (Ev : v = (x, calls q')) by congruence.
    assert (Eo : put_object (length pre) (Queue cmp (quiet q')) (map e_obj (pre ++ Entry (Queue cmp q) p (queue_cells p st) :: post)) = os) by congruence.
    rewrite PP. destruct (dequeue_own code cmp p h st q q' x A C F) as (h' & E & A' & T). rewrite (bnd_Ok _ _ _ _ _ E).
    destruct (object_step h0 h h' pre (Queue cmp q) p _ post (Queue cmp (quiet q')) (queue_cells p st) os W T) as (es' & E1 & E2 & W');
      [split; [reflexivity|]; exists st; split; [reflexivity|exact A']|exact Eo|].
    exists h', es'. rewrite <- E1, Ev. auto.
  - object_of H En. destruct (PK _ _ En) as (pre & p & cs & post & -> & <- & (C & st & Ec & A) & PP). cbn [e_cells e_ptr] in *. subst cs.
    destruct (priorq_peek q) as [x| | |] eqn:F; cbn [bind] in H; try discriminate. injection H as <- <-.
    rewrite PP. rewrite (bnd_Ok _ _ _ _ _ (peek_own code cmp p h st q x A F)). eexists h, _. split; [reflexivity|]. split; [reflexivity|exact W].
  - object_of H En. destruct (PK _ _ En) as (pre & p & cs & post & -> & <- & (C & st & Ec & A) & PP). cbn [e_cells e_ptr] in *. subst cs.
    destruct (priorq_pop q) as [[q' x]| | |] eqn:F; cbn [bind] in H; try discriminate. assert (Ev : v = (x, [])) by congruence.
    assert (Eo : put_object (length pre) (Queue cmp (quiet q')) (map e_obj (pre ++ Entry (Queue cmp q) p (queue_cells p st) :: post)) = os) by congruence.
    rewrite PP. destruct (pop_own code cmp p h st q q' x A C F) as (h' & E & _ & A' & T). rewrite (bnd_Ok _ _ _ _ _ E).
    destruct (object_step h0 h h' pre (Queue cmp q) p _ post (Queue cmp (quiet q')) (queue_cells p st) os W T) as (es' & E1 & E2 & W');
      [split; [reflexivity|]; exists st; split; [reflexivity|exact A']|exact Eo|].
    exists h', es'. rewrite <- E1, Ev. auto.
  - object_of H En. destruct (PK _ _ En) as (pre & p & cs & post & -> & <- & (C & st & Ec & A) & PP). cbn [e_cells e_ptr] in *. subst cs.
    destruct (priorq_remove (code cmp) q loc) as [[q' x]| | |] eqn:F; cbn [bind] in H; try discriminate. assert (Ev : v = (x, calls q')) by congruence.
    assert (Eo : put_object (length pre) (Queue cmp (quiet q')) (map e_obj (pre ++ Entry (Queue cmp q) p (queue_cells p st) :: post)) = os) by congruence.
    rewrite PP. destruct (remove_own code cmp p h st q q' loc x A C F) as (h' & E & A' & T). rewrite (bnd_Ok _ _ _ _ _ E).
    destruct (object_step h0 h h' pre (Queue cmp q) p _ post (Queue cmp (quiet q')) (queue_cells p st) os W T) as (es' & E1 & E2 & W');
      [split; [reflexivity|]; exists st; split; [reflexivity|exact A']|exact Eo|].
    exists h', es'. rewrite <- E1, Ev. auto.
  - object_of H En. destruct (PK _ _ En) as (pre & p & cs & post & -> & <- & (C & st & Ec & A) & PP). cbn [e_cells e_ptr] in *. subst cs.
    injection H as <- <-. rewrite PP. rewrite (bnd_Ok _ _ _ _ _ (size_own cmp p h st q A)). eexists h, _. split; [reflexivity|]. split; [reflexivity|exact W].
  - object_of H En. destruct (PK _ _ En) as (pre & p & cs & post & -> & <- & (C & st & Ec & A) & PP). cbn [e_cells e_ptr] in *. subst cs.
    assert (Ev : v = nothing) by (injection H as <- _; reflexivity). assert (Eo : put_object (length pre) Gone (map e_obj (pre ++ Entry (Queue cmp q) p (queue_cells p st) :: post)) = os) by congruence.
    rewrite PP. destruct (destroy_queue_own code cmp p h st q A) as (h' & E & T). rewrite (bnd_Ok _ _ _ _ _ E).
    destruct (object_step h0 h h' pre (Queue cmp q) p _ post Gone [] os W T) as (es' & E1 & E2 & W'); [reflexivity|exact Eo|].
    exists h', es'. rewrite <- E1, Ev. auto.
  - destruct (ByteArrayModel.make_byte_array junk max) as [a| | |] eqn:F; cbn [bind] in H; try discriminate. injection H as <- <-.
    destruct (ByteHeap.make_own junk max a h F) as (p & d & h' & E & A & T). rewrite (bnd_Ok _ _ _ _ _ E).
    exists h', (es ++ [Entry (Bytes a) p [p; d]]). rewrite !map_app. split; [reflexivity|]. split; [reflexivity|].
    eapply (world_step h0 h h' es Gone p [] []); [apply world_more; exact W|exact T|]. exists d. split; [reflexivity|exact A].
  - object_of H En. destruct (PK _ _ En) as (pre & p & cs & post & -> & <- & (d & Ec & A) & PP). cbn [e_cells e_ptr] in *. subst cs.
    destruct (bytes_step junk a o) as [[a' w]| | |] eqn:F; cbn [bind] in H; try discriminate. assert (Ev : v = w) by congruence.
    assert (Eo : put_object (length pre) (Bytes a') (map e_obj (pre ++ Entry (Bytes a) p [p; d] :: post)) = os) by congruence.
    rewrite PP. destruct (bytes_step_own junk p h d a o a' w A F) as (d' & h' & E & A' & T). rewrite (bnd_Ok _ _ _ _ _ E).
    destruct (object_step h0 h h' pre (Bytes a) p _ post (Bytes a') [p; d'] os W T) as (es' & E1 & E2 & W'); [exists d'; split; [reflexivity|exact A']|exact Eo|].
    exists h', es'. rewrite <- E1, Ev. auto.
  - destruct (Nat.eqb_spec k j) as [|Nkj]; [discriminate|]. unfold a_bytes in H.
    destruct (nth_error (map e_obj es) k) as [[|?|? ?|a]|] eqn:En; cbn [bind] in H; try discriminate.
    destruct (nth_error (map e_obj es) j) as [[|?|? ?|b]|] eqn:Ej; cbn [bind] in H; try discriminate.
    destruct (from (ByteArrayModel.byte_array_data b) i) as [s| | |] eqn:Es; cbn [bind] in H; try discriminate.
    destruct (ByteArrayModel.byte_array_append junk a s len) as [[a' ok]| | |] eqn:F; cbn [bind] in H; try discriminate.
    destruct (PK _ _ Ej) as (prej & q & csj & postj & Eq & Lj & (dj & Ecj & Aj) & PPj). cbn [e_cells e_ptr] in Ecj, Aj. subst csj.
    destruct (PK _ _ En) as (pre & p & cs & post & Ep & Lk & (d & Ec & A) & PP). cbn [e_cells e_ptr] in Ec, A. subst cs.
    assert (NK : nth_error es k = Some (Entry (Bytes a) p [p; d])). { rewrite Ep, nth_error_app2 by lia. replace (k - length pre)%nat with 0%nat by lia. reflexivity. }
    assert (NJ : nth_error es j = Some (Entry (Bytes b) q [q; dj])). { rewrite Eq, nth_error_app2 by lia. replace (j - length prej)%nat with 0%nat by lia. reflexivity. }
    pose proof W as (_ & ND & _). pose proof (apart es ND j k _ _ dj NJ NK ltac:(congruence) ltac:(right; left; reflexivity)) as AP. cbn [e_cells In] in AP.
    rewrite PP, PPj. rewrite (bnd_Ok _ _ _ _ _ (ByteHeap.data_own q h dj b Aj)).
    destruct (ByteHeap.append_own junk p h d a _ s len a' ok A (other_readable p h d dj _ i s (proj1 (proj2 Aj)) ltac:(intuition congruence) ltac:(intuition congruence) Es) F) as (d' & h' & E & A' & T).
    rewrite (bnd_Ok _ _ _ _ _ E). rewrite Ep in W. rewrite <- Lk in H. rewrite Ep in H.
    destruct (object_step h0 h h' pre (Bytes a) p _ post (Bytes a') [p; d'] os W T) as (es' & E1 & E2 & W'); [exists d'; split; [reflexivity|exact A']|congruence|].
    exists h', es'. split; [|split; [exact E2|exact W']]. unfold ret. rewrite Ep, <- E1. injection H as <- _. reflexivity.
  - object_of H En. destruct (PK _ _ En) as (pre & p & cs & post & -> & <- & (d & Ec & A) & PP). cbn [e_cells e_ptr] in *. subst cs.
    unfold ByteArrayModel.byte_array_data in H. destruct (rd (ByteArrayModel.data a) i) as [x| | |] eqn:F; cbn [bind] in H; try discriminate. injection H as <- <-.
    rewrite PP. rewrite (bnd_Ok _ _ _ _ _ (ByteHeap.data_own p h d a A)). rewrite (bnd_Ok _ _ _ _ _ (field_ok d i _ x h (proj1 (proj2 A)) F)).
    eexists h, _. split; [reflexivity|]. split; [reflexivity|exact W].
  - object_of H En. destruct (PK _ _ En) as (pre & p & cs & post & -> & <- & (d & Ec & A) & PP). cbn [e_cells e_ptr] in *. subst cs.
    injection H as <- <-. rewrite PP. rewrite (bnd_Ok _ _ _ _ _ (ByteHeap.size_own p h d a A)). eexists h, _. split; [reflexivity|]. split; [reflexivity|exact W].
  - object_of H En. destruct (PK _ _ En) as (pre & p & cs & post & -> & <- & (d & Ec & A) & PP). cbn [e_cells e_ptr] in *. subst cs.
    assert (Ev : v = nothing) by (injection H as <- _; reflexivity).
    assert (Eo : put_object (length pre) (Bytes (ByteArrayModel.share_byte_array a)) (map e_obj (pre ++ Entry (Bytes a) p [p; d] :: post)) = os) by congruence.
    rewrite PP. destruct (ByteHeap.share_own p h d a A) as (h' & E & A' & T). rewrite (bnd_Ok _ _ _ _ _ E).
    destruct (object_step h0 h h' pre (Bytes a) p _ post (Bytes (ByteArrayModel.share_byte_array a)) [p; d] os W T) as (es' & E1 & E2 & W'); [exists d; split; [reflexivity|exact A']|exact Eo|].
    exists h', es'. unfold put_pointer. rewrite put_same by (rewrite map_app, nth_error_app2, map_length, Nat.sub_diag by (rewrite map_length; lia); reflexivity). rewrite <- E1, Ev. auto.
  - object_of H En. destruct (PK _ _ En) as (pre & p & cs & post & -> & <- & (d & Ec & A) & PP). cbn [e_cells e_ptr] in *. subst cs.
    assert (Ev : v = nothing) by (injection H as <- _; reflexivity).
    rewrite PP. destruct (ByteHeap.destroy_own p h d a A) as (h' & E & R). rewrite (bnd_Ok _ _ _ _ _ E).
    destruct (ByteArrayModel.destroy_byte_array a) as [a'|]; [destruct R as (A' & T)|rename R into T].
    + destruct (object_step h0 h h' pre (Bytes a) p _ post (Bytes a') [p; d] os W T) as (es' & E1 & E2 & W'); [exists d; split; [reflexivity|exact A']|congruence|].
      exists h', es'. rewrite <- E1, Ev. auto.
    + destruct (object_step h0 h h' pre (Bytes a) p _ post Gone [] os W T) as (es' & E1 & E2 & W'); [reflexivity|congruence|].
      exists h', es'. rewrite <- E1, Ev. auto.
Qed.

Lemma alone_together_all code junk h0 : forall cs h es vs os, world h0 h es -> alone_all code junk cs (map e_obj es) = Ok (vs, os) ->
  exists h' es', together_all code junk cs (map e_ptr es) h = Ok ((vs, map e_ptr es'), h') /\ map e_obj es' = os /\ world h0 h' es'.
Proof.
  induction cs as [|c cs IH]; intros h es vs os W H; cbn [alone_all] in H; cbn [together_all].
  - injection H as <- <-. exists h, es. auto.
  - destruct (alone code junk c (map e_obj es)) as [[v os1]| | |] eqn:E1; cbn [bind] in H; try discriminate.
    destruct (alone_all code junk cs os1) as [[vs1 os2]| | |] eqn:E2; cbn [bind] in H; try discriminate. injection H as <- <-.
    destruct (alone_together code junk c h0 h es v os1 W E1) as (h1 & es1 & T1 & O1 & W1). rewrite (bnd_Ok _ _ _ _ _ T1). cbn [snd fst].
    subst os1. destruct (IH h1 es1 vs1 os2 W1 E2) as (h2 & es2 & T2 & O2 & W2). rewrite (bnd_Ok _ _ _ _ _ T2). cbn [snd fst].
    exists h2, es2. auto.
Qed.

Lemma gone_cells h es : Forall (obj_ok h) es -> Forall (eq Gone) (map e_obj es) -> all_cells es = [].
Proof.
  induction 1 as [|e es H _ IH]; intros G; [reflexivity|]. cbn [map] in G. inversion G as [|? ? G1 G2]. subst.
  unfold obj_ok in H. rewrite <- G1 in H. unfold all_cells in *. cbn [map concat]. rewrite H, IH by exact G2. reflexivity.
Qed.
Lemma few_cells h es : Forall (obj_ok h) es -> (length (all_cells es) <= 2 * live (map e_obj es))%nat.
Proof.
  induction 1 as [|e es H _ IH]; [simpl; lia|]. change (all_cells (e :: es)) with (e_cells e ++ all_cells es). rewrite app_length.
  pose proof (obj_cells _ _ H) as (_ & L & _). unfold live in *. cbn [map filter]. unfold obj_ok in H. destruct (e_obj e); cbn [length]; [rewrite H; cbn [length]; lia|lia|lia|lia].
Qed.

Theorem many_objects code junk h cs vs os : alone_all code junk cs [] = Ok (vs, os) ->
  exists ps h' new, together_all code junk cs [] h = Ok ((vs, ps), h') /\ length ps = length os /\
    NoDup new /\ (forall x, In x new -> get h x = None) /\ same_outside new h h' /\ (length new <= 2 * live os)%nat /\
    (Forall (eq Gone) os -> same_memory h h').
Proof.
  intros H. assert (W : world h h []). { split; [constructor|]. split; [constructor|]. split; [intros ? []|intros ? _; reflexivity]. }
  destruct (alone_together_all code junk h cs h [] vs os W H) as (h' & es & T & O & (W1 & W2 & W3 & W4)).
  exists (map e_ptr es), h', (all_cells es). rewrite <- O. split; [exact T|]. split; [rewrite !map_length; reflexivity|].
  split; [exact W2|]. split; [exact W3|]. split; [exact W4|]. split; [exact (few_cells _ _ W1)|].
  intros G. intros x. apply W4. rewrite (gone_cells _ _ W1 G). intros [].
Qed.
