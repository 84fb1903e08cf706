(** Proofs about src/fsalloc.c. *)
From Verif Require Import Base FsallocModel FsallocSpec.
From Coq Require Import ZifyBool ZifyNat.

Lemma find_in bs a b : find bs a = Some b -> In a (map fst bs).
Proof.
  induction bs as [|[a' b'] bs IH]; cbn [find map fst In]; [discriminate|]. destruct (a =? a') eqn:E; [left; lia|right; auto].
Qed.
Lemma find_none bs a : ~ In a (map fst bs) -> find bs a = None.
Proof. destruct (find bs a) eqn:E; [|reflexivity]. intros N. apply find_in in E. contradiction. Qed.
Lemma in_find bs a : In a (map fst bs) -> exists b, find bs a = Some b.
Proof.
  induction bs as [|[a' b'] bs IH]; cbn [find map fst In]; [contradiction|]. intros [->|I]; [rewrite Z.eqb_refl; eauto|]. destruct (a =? a'); eauto.
Qed.
Lemma erase_keys bs a x : In x (map fst (erase bs a)) <-> In x (map fst bs) /\ x <> a.
Proof.
  unfold erase. induction bs as [|[a' b'] bs IH]; cbn [filter map fst In]; [tauto|]. destruct (a' =? a) eqn:E; cbn [negb map fst In]; rewrite IH.
  - split; [tauto|]. intros [[<-|H] N]; [lia|tauto].
  - split; [|tauto]. intros [<-|H]; [|tauto]. split; [tauto|lia].
Qed.
Lemma erase_nodup bs a : NoDup (map fst bs) -> NoDup (map fst (erase bs a)).
Proof.
  induction bs as [|[a' b'] bs IH]; cbn [map fst]; [auto|]. intros N. inversion_clear N as [|? ? N1 N2]. unfold erase. cbn [filter fst]. destruct (a' =? a) eqn:E; cbn [negb]; [exact (IH N2)|].
  cbn [map fst]. constructor; [|exact (IH N2)]. intros I. apply erase_keys in I. tauto.
Qed.
Lemma find_erase bs a x : find (erase bs a) x = if x =? a then None else find bs x.
Proof.
  unfold erase. induction bs as [|[a' b'] bs IH]; cbn [filter fst find]; [destruct (x =? a); reflexivity|]. destruct (a' =? a) eqn:E; cbn [negb find].
  - rewrite IH. destruct (x =? a) eqn:F; [reflexivity|]. replace (x =? a') with false by lia. reflexivity.
  - rewrite IH. destruct (x =? a') eqn:G; [|reflexivity]. replace (x =? a) with false by lia. reflexivity.
Qed.
Lemma erase_absent bs a : ~ In a (map fst bs) -> erase bs a = bs.
Proof.
  unfold erase. induction bs as [|[a' b'] bs IH]; cbn [filter map fst In]; [reflexivity|]. intros N. replace (a' =? a) with false by lia. cbn [negb]. rewrite IH by tauto. reflexivity.
Qed.
Lemma erase_length bs a b : NoDup (map fst bs) -> find bs a = Some b -> zlen (erase bs a) = zlen bs - 1.
Proof.
  induction bs as [|[a' b'] bs IH]; cbn [map fst find]; [discriminate|]. intros N F. inversion_clear N as [|? ? N1 N2]. unfold erase. cbn [filter fst]. fold (erase bs a).
  destruct (a =? a') eqn:E.
  - replace (a' =? a) with true by lia. cbn [negb]. rewrite erase_absent by (replace a with a' by lia; exact N1). rewrite zlen_cons. lia.
  - replace (a' =? a) with false by lia. cbn [negb]. rewrite !zlen_cons, IH by assumption. lia.
Qed.
Lemma above_all_big bs x : In x (map fst bs) -> x < above_all bs.
Proof.
  unfold above_all. induction bs as [|[a b] bs IH]; cbn [map fst In fold_right]; [contradiction|]. intros [<-|H]; [lia|]. specialize (IH H). lia.
Qed.
Lemma above_all_pos bs : 0 < above_all bs.
Proof. unfold above_all. induction bs as [|[a b] bs IH]; cbn [fold_right fst]; lia. Qed.
Lemma choose_free bs a : choose bs a <> 0 /\ ~ In (choose bs a) (map fst bs).
Proof.
  unfold choose. pose proof (above_all_pos bs). destruct (a =? 0) eqn:E.
  - split; [lia|]. intros I. apply above_all_big in I. lia.
  - destruct (find bs a) eqn:F; [split; [lia|]; intros I; apply above_all_big in I; lia|]. split; [lia|]. intros I. apply in_find in I as (b & I). congruence.
Qed.

Lemma live_none m p : proper m -> ~ In p (map fst (blocks m)) -> live m p = None.
Proof. intros _ N. unfold live. destruct (p =? 0); [reflexivity|]. apply find_none. exact N. Qed.
Lemma live_in m p b : live m p = Some b -> p <> 0 /\ find (blocks m) p = Some b.
Proof. unfold live. destruct (p =? 0) eqn:E; [discriminate|]. intros H. split; [lia|exact H]. Qed.

Lemma zlen_fresh junk n : 0 <= n -> zlen (fresh_block junk n) = n.
Proof. intros H. unfold fresh_block, zlen. rewrite map_length, seq_length. lia. Qed.

(** * The default reallocator *)

Lemma naive_new m size : proper m -> 0 <= size ->
  match naive_realloc 0 size m with
  | Ok (p, m') => proper m' /\ untouched [p] m m' /\
      ((p <> 0 /\ live m p = None /\ exists b, live m' p = Some b /\ zlen b = size /\ in_use m' = in_use m + 1) \/
       (p = 0 /\ size = 0 /\ exhausted m /\ in_use m' = in_use m))
  | Abort => exhausted m /\ size <> 0
  | UB | NoFuel => False
  end.
Proof.
  intros W S. unfold naive_realloc, libc_realloc. cbn [Z.eqb]. unfold exhausted. destruct (answers m (clock m)) as [a|] eqn:A; cbn [bind].
  - destruct (choose_free (blocks m) a) as [N F]. replace (choose (blocks m) a =? 0) with false by lia. cbn [andb]. destruct W as [W1 W2]. split; [|split].
    + split; cbn [blocks map fst]; [constructor; assumption|intros [H|H]; [congruence|contradiction]].
    + intros q NI. unfold live. cbn [blocks find]. destruct (q =? 0); [reflexivity|]. replace (q =? choose (blocks m) a) with false; [reflexivity|]. cbn [In] in NI. lia.
    + left. split; [exact N|]. split; [apply live_none; [split; assumption|exact F]|]. exists (fresh_block (dirt m (clock m)) size). unfold live. replace (choose (blocks m) a =? 0) with false by lia. cbn [blocks find]. rewrite Z.eqb_refl.
      split; [reflexivity|]. split; [apply zlen_fresh; exact S|]. unfold in_use. cbn [blocks]. rewrite zlen_cons. lia.
  - cbn [Z.eqb andb]. destruct (size =? 0) eqn:E; cbn [negb]; [|split; [reflexivity|lia]]. split; [exact W|]. split; [intros q _; reflexivity|]. right. repeat split; lia.
Qed.

Lemma naive_free m ptr b : proper m -> live m ptr = Some b ->
  exists m', naive_realloc ptr 0 m = Ok (0, m') /\ proper m' /\ live m' ptr = None /\ untouched [ptr] m m' /\ in_use m' = in_use m - 1.
Proof.
  intros [W1 W2] L. pose proof (live_in _ _ _ L) as [N F]. unfold naive_realloc, libc_realloc. replace (ptr =? 0) with false by lia. rewrite L. cbn [Z.eqb bind andb negb]. eexists. split; [reflexivity|].
  split; [|split; [|split]].
  - split; cbn [blocks]; [apply erase_nodup; exact W1|]. intros I. apply erase_keys in I. tauto.
  - unfold live. replace (ptr =? 0) with false by lia. cbn [blocks]. rewrite find_erase, Z.eqb_refl. reflexivity.
  - intros q NI. unfold live. cbn [blocks]. destruct (q =? 0); [reflexivity|]. rewrite find_erase. cbn [In] in NI. replace (q =? ptr) with false by lia. reflexivity.
  - unfold in_use. cbn [blocks]. exact (erase_length _ _ _ W1 F).
Qed.

Lemma naive_resize m ptr b size : proper m -> live m ptr = Some b -> 0 < size ->
  match naive_realloc ptr size m with
  | Ok (p, m') => proper m' /\ p <> 0 /\ (p = ptr \/ (live m p = None /\ live m' ptr = None)) /\ untouched [ptr; p] m m' /\ in_use m' = in_use m /\
      exists b', live m' p = Some b' /\ zlen b' = size /\ firstn (Z.to_nat (Z.min size (zlen b))) b' = firstn (Z.to_nat (Z.min size (zlen b))) b
  | Abort => exhausted m
  | UB | NoFuel => False
  end.
Proof.
  intros [W1 W2] L S. pose proof (live_in _ _ _ L) as [N F]. unfold naive_realloc, libc_realloc, exhausted. replace (ptr =? 0) with false by lia. rewrite L. replace (size =? 0) with false by lia.
  destruct (answers m (clock m)) as [a|] eqn:A; cbn [bind]; [|cbn [Z.eqb andb negb]; reflexivity].
  set (rest := erase (blocks m) ptr). destruct (choose_free rest a) as [Np Fp]. set (p := choose rest a) in *. replace (p =? 0) with false by lia. cbn [andb].
  split; [|split; [exact Np|split; [|split; [|split]]]].
  - split; cbn [blocks map fst]; [constructor; [exact Fp|apply erase_nodup; exact W1]|]. intros [H|H]; [congruence|]. apply erase_keys in H. tauto.
  - destruct (Z.eq_dec p ptr) as [E|E]; [left; exact E|right]. split.
    + unfold live. replace (p =? 0) with false by lia. apply find_none. intros I. apply Fp. apply erase_keys. auto.
    + unfold live. replace (ptr =? 0) with false by lia. cbn [blocks find]. replace (ptr =? p) with false by lia. unfold rest. rewrite find_erase, Z.eqb_refl. reflexivity.
  - intros q NI. cbn [In] in NI. unfold live. cbn [blocks find]. destruct (q =? 0); [reflexivity|]. replace (q =? p) with false by lia. unfold rest. rewrite find_erase. replace (q =? ptr) with false by lia. reflexivity.
  - unfold in_use. cbn [blocks]. rewrite zlen_cons. unfold rest. rewrite (erase_length _ _ _ W1 F). lia.
  - eexists. split; [unfold live; replace (p =? 0) with false by lia; cbn [blocks find]; rewrite Z.eqb_refl; reflexivity|].
    assert (zlen (firstn (Z.to_nat size) b) = Z.min size (zlen b)) as LF by (unfold zlen; rewrite firstn_length; lia).
    pose proof (zlen_nonneg b). split.
    + rewrite zlen_app, LF. destruct (Z_le_gt_dec size (zlen b)).
      * unfold fresh_block. replace (Z.to_nat (size - zlen b)) with 0%nat by lia. cbn [seq map]. rewrite zlen_nil. lia.
      * rewrite zlen_fresh by lia. lia.
    + rewrite <- LF. replace (Z.to_nat (zlen (firstn (Z.to_nat size) b))) with (length (firstn (Z.to_nat size) b)) by (unfold zlen; lia).
      rewrite firstn_app, Nat.sub_diag, firstn_all. cbn [firstn]. rewrite app_nil_r. rewrite firstn_length.
      destruct (Nat.le_ge_cases (Z.to_nat size) (length b)); [rewrite Nat.min_l by lia; reflexivity|]. rewrite Nat.min_r by lia. rewrite firstn_all, firstn_all2 by lia. reflexivity.
Qed.

Lemma naive_illegal m ptr size : ptr <> 0 -> live m ptr = None -> naive_realloc ptr size m = UB.
Proof. intros N L. unfold naive_realloc, libc_realloc. replace (ptr =? 0) with false by lia. rewrite L. reflexivity. Qed.

Lemma store_ok m p b d : proper m -> live m p = Some b -> zlen d <= zlen b ->
  exists m', store p d m = Ok m' /\ proper m' /\ live m' p = Some (d ++ skipn (length d) b) /\ untouched [p] m m' /\ in_use m' = in_use m.
Proof.
  intros [W1 W2] L Z. pose proof (live_in _ _ _ L) as [N F]. unfold store. rewrite L. replace (zlen d <=? zlen b) with true by lia. eexists. split; [reflexivity|]. split; [|split; [|split]].
  - split; cbn [blocks map fst]; [constructor; [intros I; apply erase_keys in I; tauto|apply erase_nodup; exact W1]|]. intros [H|H]; [congruence|]. apply erase_keys in H. tauto.
  - unfold live. replace (p =? 0) with false by lia. cbn [blocks find]. rewrite Z.eqb_refl. reflexivity.
  - intros q NI. cbn [In] in NI. unfold live. cbn [blocks find]. destruct (q =? 0); [reflexivity|]. rewrite find_erase. replace (q =? p) with false by lia. reflexivity.
  - unfold in_use. cbn [blocks]. rewrite zlen_cons, (erase_length _ _ _ W1 F). lia.
Qed.
Lemma untouched_trans ps m1 m2 m3 : untouched ps m1 m2 -> untouched ps m2 m3 -> untouched ps m1 m3.
Proof. intros A B q N. rewrite (B q N). exact (A q N). Qed.

(** * The API with the default reallocator *)

Lemma heap_mk {U} m (u : U) f c : heap_of (mk_state (m, u) f c) = m.
Proof. reflexivity. Qed.

Lemma call_naive {U} (P : program U) ptr size s : reallocator s = NAIVE ->
  call P ptr size s = '(obj, m) <- naive_realloc ptr size (heap_of s) ;; Ok (obj, mk_state (m, snd (world s)) (reallocator s) (reallocator_counter s)).
Proof. intros E. unfold call. rewrite E. reflexivity. Qed.

Lemma fsalloc_ok {U} (P : program U) s size : reallocator s = NAIVE -> proper (heap_of s) -> 0 <= size ->
  match fsalloc P size s with
  | Ok (p, s') => proper (heap_of s') /\ same_rest s s' /\ untouched [p] (heap_of s) (heap_of s') /\
      ((p <> 0 /\ live (heap_of s) p = None /\ exists b, live (heap_of s') p = Some b /\ zlen b = size /\ in_use (heap_of s') = in_use (heap_of s) + 1) \/
       (p = 0 /\ size = 0 /\ exhausted (heap_of s) /\ in_use (heap_of s') = in_use (heap_of s)))
  | Abort => exhausted (heap_of s) /\ size <> 0
  | UB | NoFuel => False
  end.
Proof.
  intros E W S. unfold fsalloc. rewrite (call_naive P 0 size s E). pose proof (naive_new (heap_of s) size W S) as K. destruct (naive_realloc 0 size (heap_of s)) as [[p m]| | |]; cbn [bind]; auto.
  rewrite !heap_mk. destruct K as (K1 & K2 & K3). repeat split; auto; apply K1.
Qed.

Lemma fsfree_ok {U} (P : program U) s ptr : reallocator s = NAIVE -> proper (heap_of s) ->
  match fsfree P ptr s with
  | Ok s' => proper (heap_of s') /\ same_rest s s' /\ untouched [ptr] (heap_of s) (heap_of s') /\ live (heap_of s') ptr = None /\
      (ptr = 0 -> s' = s) /\ (ptr <> 0 -> live (heap_of s) ptr <> None /\ in_use (heap_of s') = in_use (heap_of s) - 1)
  | UB => ptr <> 0 /\ live (heap_of s) ptr = None
  | Abort | NoFuel => False
  end.
Proof.
  intros E W. unfold fsfree. destruct (truth ptr) eqn:T.
  - rewrite (call_naive P ptr 0 s E). assert (ptr <> 0) as N by (unfold truth in T; lia). destruct (live (heap_of s) ptr) as [b|] eqn:L.
    + destruct (naive_free (heap_of s) ptr b W L) as (m' & -> & K1 & K2 & K3 & K4). cbn [bind]. rewrite !heap_mk.
      split; [exact K1|]. split; [repeat split|]. split; [exact K3|]. split; [exact K2|]. split; [contradiction|]. intros _. split; [congruence|exact K4].
    + rewrite (naive_illegal _ _ _ N L). cbn [bind]. auto.
  - assert (ptr = 0) as -> by (unfold truth in T; lia). split; [exact W|]. split; [repeat split|]. split; [intros q _; reflexivity|]. split; [reflexivity|]. split; [reflexivity|contradiction].
Qed.

Lemma fsrealloc_ok {U} (P : program U) s ptr size b : reallocator s = NAIVE -> proper (heap_of s) -> 0 < size -> live (heap_of s) ptr = Some b ->
  match fsrealloc P ptr size s with
  | Ok (p, s') => proper (heap_of s') /\ same_rest s s' /\ p <> 0 /\
      (p = ptr \/ (live (heap_of s) p = None /\ live (heap_of s') ptr = None)) /\ untouched [ptr; p] (heap_of s) (heap_of s') /\ in_use (heap_of s') = in_use (heap_of s) /\
      exists b', live (heap_of s') p = Some b' /\ zlen b' = size /\ firstn (Z.to_nat (Z.min size (zlen b))) b' = firstn (Z.to_nat (Z.min size (zlen b))) b
  | Abort => exhausted (heap_of s)
  | UB | NoFuel => False
  end.
Proof.
  intros E W S L. unfold fsrealloc. rewrite (call_naive P ptr size s E). pose proof (naive_resize (heap_of s) ptr b size W L S) as K. destruct (naive_realloc ptr size (heap_of s)) as [[p m]| | |]; cbn [bind]; auto.
  rewrite !heap_mk. destruct K as (K1 & K2 & K3 & K4 & K5 & K6). split; [exact K1|]. split; [repeat split|]. auto 10.
Qed.
Lemma fsrealloc_zero {U} (P : program U) s ptr b : reallocator s = NAIVE -> proper (heap_of s) -> live (heap_of s) ptr = Some b ->
  exists s', fsrealloc P ptr 0 s = Ok (0, s') /\ fsfree P ptr s = Ok s'.
Proof.
  intros E W L. pose proof (live_in _ _ _ L) as [N _]. unfold fsrealloc, fsfree. replace (truth ptr) with true by (unfold truth; lia). rewrite (call_naive P ptr 0 s E).
  destruct (naive_free (heap_of s) ptr b W L) as (m' & -> & _). cbn [bind]. eauto.
Qed.

Lemma fscalloc_full {U} (P : program U) s n size : reallocator s = NAIVE -> proper (heap_of s) ->
  match fscalloc P n size s with
  | Ok (p, s') => proper (heap_of s') /\ same_rest s s' /\ untouched [p] (heap_of s) (heap_of s') /\
      ((p <> 0 /\ live (heap_of s) p = None /\ live (heap_of s') p = Some (repeat 0 (Z.to_nat (n * size mod 2 ^ 64))) /\ in_use (heap_of s') = in_use (heap_of s) + 1) \/
       (p = 0 /\ n * size mod 2 ^ 64 = 0 /\ exhausted (heap_of s) /\ in_use (heap_of s') = in_use (heap_of s)))
  | Abort => exhausted (heap_of s)
  | UB | NoFuel => False
  end.
Proof.
  intros E W. unfold fscalloc. cbn zeta. set (k := u64 (size * n)). assert (k = n * size mod 2 ^ 64) as K by (unfold k, u64; rewrite Z.mul_comm; reflexivity). rewrite <- K. assert (0 <= k) as Pk by (rewrite K; apply Z.mod_pos_bound; lia). clearbody k.
  pose proof (fsalloc_ok P s k E W Pk) as A. destruct (fsalloc P k s) as [[p s1]| | |]; cbn [bind]; try tauto. destruct A as (A1 & A2 & A3 & A4).
  destruct (p =? 0) eqn:Z; cbn [negb].
  - split; [exact A1|]. split; [exact A2|]. split; [exact A3|]. right. destruct A4 as [(A4 & _)|A4]; [lia|exact A4].
  - destruct A4 as [(N & F & b & L & Lb & U1)|(A4 & _)]; [|lia].
    assert (Lz : zlen (repeat 0 (Z.to_nat k)) = k) by (unfold zlen; rewrite repeat_length; lia).
    destruct (store_ok (heap_of s1) p b (repeat 0 (Z.to_nat k)) A1 L ltac:(lia)) as (m & Em & M1 & M2 & M3 & M4). unfold heap_of in Em. rewrite Em. cbn [bind].
    rewrite !heap_mk. split; [exact M1|]. split; [unfold same_rest in *; cbn [world snd reallocator reallocator_counter]; tauto|]. split; [exact (untouched_trans _ _ _ _ A3 M3)|].
    left. split; [exact N|]. split; [exact F|]. split; [|fold (heap_of s) in U1; lia]. rewrite M2. f_equal. rewrite skipn_all2; [apply app_nil_r|]. rewrite repeat_length. unfold zlen in *. lia.
Qed.

(** * Custom reallocators *)

Lemma recorded_run {U} (P : program U) ops : forall s s', run (recorded P) ops s = Ok s' ->
  snd (snd (world s')) = snd (snd (world s)) ++ expected ops (reallocator s) (reallocator_counter s) /\
  fs_get_reallocator s' = installed ops (reallocator s) /\ fs_get_reallocator_counter s' = installed_counter ops (reallocator_counter s).
Proof.
  assert (C : forall ptr size (s : state (U * list event)) p s', call (recorded P) ptr size s = Ok (p, s') ->
    snd (snd (world s')) = snd (snd (world s)) ++ (if reallocator s =? NAIVE then [] else [Reallocator (reallocator s) ptr size]) /\
    reallocator s' = reallocator s /\ reallocator_counter s' = reallocator_counter s).
  { intros ptr size s p s' H. unfold call in H. destruct (reallocator s =? NAIVE).
    - destruct (naive_realloc ptr size (fst (world s))) as [[o m]| | |]; try discriminate H. cbn [bind] in H. injection H as <- <-. cbn [world snd reallocator reallocator_counter]. rewrite app_nil_r. auto.
    - destruct s as [[m [u log]] f c]. cbn [world reallocator reallocator_counter recorded p_reallocator] in *. destruct (p_reallocator P f ptr size (m, u)) as [[o [m' u']]| | |]; try discriminate H. cbn [bind] in H. injection H as <- <-. auto. }
  induction ops as [|o ops IH]; intros s s' H; cbn [run] in H.
  - injection H as <-. cbn [expected]. rewrite app_nil_r. auto.
  - destruct (step (recorded P) o s) as [s1| | |] eqn:E; cbn [bind] in H; try discriminate H. apply IH in H as (H1 & H2 & H3). rewrite H1, H2, H3.
    destruct o as [size|ptr|ptr size|n size|f|c|count]; cbn [step expected installed installed_counter] in *.
    + unfold fsalloc in E. destruct (call (recorded P) 0 size s) as [[p s2]| | |] eqn:K; cbn [bind] in E; try discriminate E. injection E as <-. apply C in K as (K1 & K2 & K3). rewrite K1, K2, K3, app_assoc. auto.
    + unfold fsfree in E. destruct (truth ptr) eqn:T.
      * destruct (call (recorded P) ptr 0 s) as [[p s2]| | |] eqn:K; cbn [bind] in E; try discriminate E. injection E as <-. apply C in K as (K1 & K2 & K3). rewrite K1, K2, K3. replace (ptr =? 0) with false by (unfold truth in T; lia). rewrite app_assoc. auto.
      * injection E as <-. replace (ptr =? 0) with true by (unfold truth in T; lia). auto.
    + unfold fsrealloc in E. destruct (call (recorded P) ptr size s) as [[p s2]| | |] eqn:K; cbn [bind] in E; try discriminate E. injection E as <-. apply C in K as (K1 & K2 & K3). rewrite K1, K2, K3, app_assoc. auto.
    + unfold fscalloc, fsalloc in E. cbn zeta in E. destruct (call (recorded P) 0 (u64 (size * n)) s) as [[p s2]| | |] eqn:K; cbn [bind] in E; try discriminate E. apply C in K as (K1 & K2 & K3). unfold u64 in K1.
      destruct (negb (p =? 0)).
      * destruct (store p (repeat 0 (Z.to_nat (u64 (size * n)))) (fst (world s2))) as [m| | |]; cbn [bind] in E; try discriminate E. injection E as <-. cbn [world snd reallocator reallocator_counter]. rewrite K1, K2, K3, app_assoc. auto.
      * cbn [bind] in E. injection E as <-. rewrite K1, K2, K3, app_assoc. auto.
    + injection E as <-. cbn [fs_set_reallocator world reallocator reallocator_counter]. auto.
    + injection E as <-. cbn [fs_set_reallocator_counter world reallocator reallocator_counter]. auto.
    + unfold fs_reallocator_skew in E. destruct (reallocator_counter s =? DUMMY).
      * cbn [bind] in E. injection E as <-. cbn [world reallocator reallocator_counter]. auto.
      * destruct s as [[m [u log]] f c]. cbn [world reallocator reallocator_counter recorded p_counter] in *. destruct (p_counter P c count (m, u)) as [[m' u']| | |]; try discriminate E. cbn [bind] in E. injection E as <-.
        cbn [world snd reallocator reallocator_counter]. rewrite <- app_assoc. auto.
Qed.

(** * Statistics *)

Lemma naive_books m ptr size p m' : proper m -> 0 <= size -> naive_realloc ptr size m = Ok (p, m') ->
  proper m' /\ in_use m' = in_use m + (if (ptr =? 0) && negb (p =? 0) then 1 else 0) - (if negb (ptr =? 0) && (size =? 0) then 1 else 0).
Proof.
  intros W S H. destruct (Z.eq_dec ptr 0) as [->|N].
  - pose proof (naive_new m size W S) as K. rewrite H in K. destruct K as (K1 & _ & [(K2 & _ & b & _ & _ & K3)|(K2 & _ & _ & K3)]); (split; [exact K1|]); cbn [Z.eqb andb negb].
    + replace (p =? 0) with false by lia. cbn [negb]. lia.
    + rewrite K2. cbn [Z.eqb negb]. lia.
  - destruct (live m ptr) as [b|] eqn:L; [|rewrite (naive_illegal _ _ _ N L) in H; discriminate H]. replace (ptr =? 0) with false by lia. cbn [andb negb].
    destruct (Z.eq_dec size 0) as [->|NS].
    + destruct (naive_free m ptr b W L) as (m1 & E & K1 & _ & _ & K2). rewrite E in H. injection H as <- <-. split; [exact K1|]. cbn [Z.eqb]. lia.
    + pose proof (naive_resize m ptr b size W L ltac:(lia)) as K. rewrite H in K. destruct K as (K1 & _ & _ & _ & K2 & _). split; [exact K1|]. replace (size =? 0) with false by lia. lia.
Qed.
Lemma store_books m p d m' : proper m -> store p d m = Ok m' -> proper m' /\ in_use m' = in_use m.
Proof.
  intros W H. destruct (live m p) as [b|] eqn:L; [|unfold store in H; rewrite L in H; discriminate H].
  destruct (Z_le_gt_dec (zlen d) (zlen b)) as [Le|Gt].
  - destruct (store_ok m p b d W L Le) as (m1 & E & K1 & _ & _ & K2). rewrite E in H. injection H as <-. auto.
  - unfold store in H. rewrite L in H. replace (zlen d <=? zlen b) with false in H by lia. discriminate H.
Qed.
Lemma statistics_run ops : forall s s', Forall no_set ops -> Forall op_ok ops -> reallocator s <> NAIVE -> reallocator_counter s <> DUMMY -> proper (heap_of s) -> run statistics ops s = Ok s' ->
  proper (heap_of s') /\
  snd (world s') - snd (world s) = in_use (heap_of s') - in_use (heap_of s) + fold_right (fun o n => skew_of o + n) 0 ops.
Proof.
  assert (C : forall ptr size (s : state Z) p s', reallocator s <> NAIVE -> proper (heap_of s) -> 0 <= size -> call statistics ptr size s = Ok (p, s') ->
    proper (heap_of s') /\ snd (world s') - snd (world s) = in_use (heap_of s') - in_use (heap_of s) /\ reallocator s' = reallocator s /\ reallocator_counter s' = reallocator_counter s).
  { intros ptr size [[m n] f c] p s' F W S H. unfold call in H. cbn [reallocator world] in *. replace (f =? NAIVE) with false in H by (unfold NAIVE in *; lia). cbn [statistics p_reallocator] in H.
    destruct (naive_realloc ptr size m) as [[o m']| | |] eqn:K; try discriminate H. cbn [bind] in H. injection H as <- <-. apply naive_books in K as [K1 K2]; [|exact W|exact S]. unfold heap_of. cbn [world fst snd reallocator reallocator_counter]. split; [exact K1|]. split; [lia|auto]. }
  induction ops as [|o ops IH]; intros s s' NS OO F Cn W H; cbn [run] in H.
  - injection H as <-. cbn [fold_right]. split; [exact W|lia].
  - inversion_clear NS as [|? ? NS1 NS2]. inversion_clear OO as [|? ? OO1 OO2]. destruct (step statistics o s) as [s1| | |] eqn:E; cbn [bind] in H; try discriminate H.
    assert (proper (heap_of s1) /\ snd (world s1) - snd (world s) = in_use (heap_of s1) - in_use (heap_of s) + skew_of o /\ reallocator s1 = reallocator s /\ reallocator_counter s1 = reallocator_counter s) as (K1 & K2 & K3 & K4).
    { destruct o as [size|ptr|ptr size|n size|f|c|count]; cbn [step skew_of no_set op_ok] in *; try contradiction.
      - unfold fsalloc in E. destruct (call statistics 0 size s) as [[p s2]| | |] eqn:K; cbn [bind] in E; try discriminate E. injection E as <-. apply C in K; [|assumption..]. intuition lia.
      - unfold fsfree in E. destruct (truth ptr); [|injection E as <-; intuition lia]. destruct (call statistics ptr 0 s) as [[p s2]| | |] eqn:K; cbn [bind] in E; try discriminate E. injection E as <-. apply C in K; [|assumption|assumption|lia]. intuition lia.
      - unfold fsrealloc in E. destruct (call statistics ptr size s) as [[p s2]| | |] eqn:K; cbn [bind] in E; try discriminate E. injection E as <-. apply C in K; [|assumption..]. intuition lia.
      - unfold fscalloc, fsalloc in E. cbn zeta in E. destruct (call statistics 0 (u64 (size * n)) s) as [[p s2]| | |] eqn:K; cbn [bind] in E; try discriminate E. apply C in K; [|assumption|assumption|unfold u64; apply Z.mod_pos_bound; lia].
        destruct K as (K1 & K2 & K3 & K4). destruct (negb (p =? 0)).
        + destruct (store p (repeat 0 (Z.to_nat (u64 (size * n)))) (fst (world s2))) as [m| | |] eqn:Q; cbn [bind] in E; try discriminate E. injection E as <-. apply store_books in Q as [Q1 Q2]; [|exact K1].
          unfold heap_of in *. cbn [world fst snd reallocator reallocator_counter]. split; [exact Q1|]. split; [lia|auto].
        + injection E as <-. intuition lia.
      - unfold fs_reallocator_skew in E. destruct s as [[m n] f c]. unfold heap_of in *. cbn [world reallocator reallocator_counter fst snd] in *. replace (c =? DUMMY) with false in E by (unfold DUMMY in *; lia). cbn [statistics p_counter bind] in E. injection E as <-.
        cbn [world reallocator reallocator_counter fst snd]. split; [exact W|]. split; [lia|auto]. }
    rewrite <- K3 in F. rewrite <- K4 in Cn. destruct (IH s1 s' NS2 OO2 F Cn K1 H) as [I1 I2]. split; [exact I1|]. cbn [fold_right]. lia.
Qed.

(** * charstr_vprintf *)

Lemma vprintf_ok {U} (P : program U) s errno out : reallocator s = NAIVE -> proper (heap_of s) -> zlen out <= INT_MAX ->
  match charstr_vprintf P (Some out) errno s with
  | Ok (p, e, s') => p <> 0 /\ e = errno /\ live (heap_of s) p = None /\ live (heap_of s') p = Some (out ++ [0]) /\ untouched [p] (heap_of s) (heap_of s') /\ same_rest s s'
  | Abort => exhausted (heap_of s)
  | UB | NoFuel => False
  end.
Proof.
  intros E W L. unfold charstr_vprintf, vsnprintf_length. cbn zeta. replace (zlen out <=? INT_MAX) with true by lia. pose proof (zlen_nonneg out). replace (zlen out <? 0) with false by lia.
  pose proof (fsalloc_ok P s (zlen out + 1) E W ltac:(lia)) as A. destruct (fsalloc P (zlen out + 1) s) as [[p s1]| | |]; cbn [bind]; try tauto. destruct A as (A1 & A2 & A3 & A4).
  destruct A4 as [(N & F & b & Lb & Zb & _)|(_ & A4 & _)]; [|lia]. replace (p =? 0) with false by lia. cbn [negb].
  assert (Zo : zlen (out ++ [0]) = zlen out + 1) by (rewrite zlen_app; reflexivity).
  destruct (store_ok (heap_of s1) p b (out ++ [0]) A1 Lb ltac:(lia)) as (m & Em & M1 & M2 & M3 & M4). unfold heap_of in Em. rewrite Em. cbn [bind].
  split; [exact N|]. split; [reflexivity|]. split; [exact F|]. rewrite !heap_mk. split; [|split].
  - rewrite M2. f_equal. rewrite skipn_all2; [apply app_nil_r|]. unfold zlen in *. lia.
  - exact (untouched_trans _ _ _ _ A3 M3).
  - unfold same_rest in *. cbn [world snd reallocator reallocator_counter]. tauto.
Qed.
Lemma vprintf_error {U} (P : program U) s errno output : (match output with Some out => zlen out > INT_MAX | None => True end) ->
  charstr_vprintf P output errno s = Ok (0, EILSEQ, s).
Proof.
  intros H. unfold charstr_vprintf, vsnprintf_length. destruct output as [out|]; [|reflexivity]. replace (zlen out <=? INT_MAX) with false by lia. reflexivity.
Qed.
