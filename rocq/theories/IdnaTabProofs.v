(** Proofs about the code that src/gen_idna_table.c writes. *)
From Verif Require Import Base IdnaTabModel IdnaTabSpec NormSpec CharstrSpec Utf8Spec Utf8Model Utf8Proofs NormBytes.
From Coq Require Import ZifyBool ZifyNat.

Lemma same_bytes_eq : forall a b, same_bytes a b = true <-> a = b.
Proof.
  induction a as [|x a IH]; intros [|y b]; cbn [same_bytes]; split; try discriminate; try reflexivity.
  - intros H. apply andb_prop in H. destruct H as [H1 H2]. apply Z.eqb_eq in H1. apply IH in H2. congruence.
  - intros E. injection E as -> ->. rewrite Z.eqb_refl. apply IH. reflexivity.
Qed.
Lemma status_eqb_eq x y : status_eqb x y = true <-> x = y.
Proof. destruct x, y; cbn [status_eqb]; rewrite ?same_bytes_eq; split; congruence. Qed.
Lemma status_eqb_neq x y : status_eqb x y = false <-> x <> y.
Proof. rewrite <- status_eqb_eq. destruct (status_eqb x y); split; congruence. Qed.
Lemma status_eqb_refl x : status_eqb x x = true.
Proof. apply status_eqb_eq. reflexivity. Qed.

(** * The lines *)

Fixpoint lookup (rows : list idna_row) (cp : Z) : option (status * option (list Z)) :=
  match rows with
  | [] => None
  | (lo, hi, st, m) :: rows => if (lo <=? cp) && (cp <=? hi) then Some (st, m) else lookup rows cp
  end.

Lemma lookup_low lo rows : idna_file lo rows -> forall cp, cp < lo -> lookup rows cp = None.
Proof.
  induction 1 as [|lo hi st m rows L M F IH]; intros cp H; cbn; [reflexivity|].
  replace ((lo <=? cp) && (cp <=? hi)) with false by lia. apply IH. lia.
Qed.
Lemma says_range lo rows : idna_file lo rows -> forall cp st m, says rows cp st m -> lo <= cp < N_CP.
Proof.
  induction 1 as [|lo hi st m rows L M F IH]; intros cp st' m' (a & b & I & R).
  - destruct I.
  - destruct I as [I|I]; [injection I as -> -> -> ->; unfold N_CP; lia|].
    assert (says rows cp st' m') as S by (exists a, b; auto). specialize (IH cp st' m' S). lia.
Qed.
Lemma says_lookup lo rows : idna_file lo rows ->
  forall cp st m, says rows cp st m <-> lookup rows cp = Some (st, m).
Proof.
  induction 1 as [|lo hi st m rows L M F IH]; intros cp st' m'; cbn.
  - split; [intros (? & ? & [] & _)|discriminate].
  - split.
    + intros (a & b & [I|I] & R).
      * injection I as -> -> -> ->. replace ((a <=? cp) && (cp <=? b)) with true by lia. reflexivity.
      * assert (says rows cp st' m') as S by (exists a, b; auto). pose proof (says_range _ _ F _ _ _ S).
        replace ((lo <=? cp) && (cp <=? hi)) with false by lia. apply IH. exact S.
    + destruct ((lo <=? cp) && (cp <=? hi)) eqn:R.
      * intros [= -> ->]. exists lo, hi. split; [left; reflexivity|lia].
      * intros S. apply IH in S. destruct S as (a & b & I & R'). exists a, b. split; [right; exact I|exact R'].
Qed.
Lemma lookup_total lo rows : idna_file lo rows -> forall cp, lo <= cp < N_CP -> exists e, lookup rows cp = Some e.
Proof.
  induction 1 as [|lo hi st m rows L M F IH]; intros cp H; cbn; [unfold N_CP in H; lia|].
  destruct ((lo <=? cp) && (cp <=? hi)) eqn:R; [eauto|]. apply IH. lia.
Qed.
Lemma lookup_fine lo rows : idna_file lo rows -> forall cp st m, lookup rows cp = Some (st, m) -> fine_mapping m.
Proof.
  induction 1 as [|lo hi st m rows L M F IH]; intros cp st' m' E; cbn in E; [discriminate|].
  destruct ((lo <=? cp) && (cp <=? hi)); [injection E as -> ->; exact M|]. apply (IH _ _ _ E).
Qed.
Lemma file_bound lo rows : idna_file lo rows -> lo <= N_CP.
Proof. destruct 1; unfold N_CP; lia. Qed.

(** * Mappings as bytes *)

Lemma put_mapping_ok cps : forall pre old, Forall (fun cp => scalar cp /\ cp <> 0) cps ->
  zlen (encoding cps) <= zlen old -> zlen pre + zlen (encoding cps) <= 99 ->
  exists rest, put_mapping cps (pre ++ old) (zlen pre) = Ok (pre ++ encoding cps ++ rest, zlen pre + zlen (encoding cps)) /\
    zlen (encoding cps) + zlen rest = zlen old.
Proof.
  induction cps as [|cp cps IH]; intros pre old F L L99; cbn [put_mapping].
  - exists old. cbn [encoding flat_map app]. change (zlen (@nil Z)) with 0. rewrite Z.add_0_r. split; [reflexivity|lia].
  - inversion F as [|? ? [Sc _] F']; subst. unfold encoding in *. cbn [flat_map] in *. rewrite zlen_app in L, L99.
    pose proof (zlen_nonneg (flat_map utf8 cps)) as Nn.
    rewrite encode_puts. rewrite enc_utf8 by (unfold scalar in Sc; lia).
    assert (exists o1 o2, old = o1 ++ o2 /\ zlen o1 = zlen (utf8 cp)) as (o1 & o2 & -> & Ho).
    { exists (firstn (length (utf8 cp)) old), (skipn (length (utf8 cp)) old). split; [symmetry; apply firstn_skipn|].
      unfold zlen in *. rewrite firstn_length. lia. }
    rewrite zlen_app in L.
    rewrite puts_fits; [|exact Ho|intros n [= <-]; lia]. cbn [bind].
    destruct (IH (pre ++ utf8 cp) o2 F') as (rest & E & Lr); [lia|rewrite zlen_app; lia|].
    rewrite zlen_app in E. rewrite <- app_assoc in E. rewrite E. exists rest.
    rewrite !zlen_app. rewrite <- !app_assoc, Z.add_assoc. split; [reflexivity|lia].
Qed.
Lemma c_string_text t : forall r, text t -> c_string (t ++ 0 :: r) = Ok t.
Proof.
  induction t as [|c t IH]; intros r T; [reflexivity|]. inversion T as [|? ? H T']; subst.
  cbn [app c_string]. replace (c =? 0) with false by (unfold byte in H; lia). rewrite IH by exact T'. reflexivity.
Qed.
Lemma mapping_bytes_ok junk m : zlen junk = 100 -> fine_mapping m ->
  mapping_bytes junk m = Ok (option_map encoding m).
Proof.
  intros J F. destruct m as [cps|]; [|reflexivity]. destruct F as [F L].
  unfold mapping_bytes. destruct (put_mapping_ok cps [] junk F) as (rest & E & Lr); [lia|change (zlen (@nil Z)) with 0; lia|].
  change (zlen (@nil Z)) with 0 in E. cbn [app] in E. rewrite E. cbn [bind].
  destruct rest as [|x rest]; [change (zlen (@nil Z)) with 0 in Lr; lia|].
  rewrite wr_app by lia. cbn [bind]. rewrite c_string_text; [reflexivity|].
  apply encs_text; (eapply Forall_impl; [|exact F]); intros a [H1 H2]; assumption.
Qed.

(** * The table *)

Lemma fill_range_ok count : forall cp e t,
  0 <= cp -> cp + Z.of_nat count <= N_CP ->
  (forall n, cp <= n < cp + Z.of_nat count -> t n = None) ->
  exists t', fill_range count cp e t = Ok t' /\
  forall n, t' n = if (cp <=? n) && (n <? cp + Z.of_nat count) then Some e else t n.
Proof.
  induction count as [|count IH]; intros cp e t L U F; cbn [fill_range].
  - exists t. split; [reflexivity|]. intros n. replace ((cp <=? n) && (n <? cp + Z.of_nat 0)) with false by lia. reflexivity.
  - replace ((0 <=? cp) && (cp <? N_CP)) with true by lia. rewrite F by lia. cbn [assert bind].
    destruct (IH (cp + 1) e (fun n => if n =? cp then Some e else t n)) as (t' & E & Q); [lia|lia| |].
    + intros n Hn. cbv beta. replace (n =? cp) with false by lia. apply F. lia.
    + exists t'. split; [exact E|]. intros n. rewrite Q. cbv beta. destruct (Z.eqb_spec n cp).
      * replace ((cp + 1 <=? n) && (n <? cp + 1 + Z.of_nat count)) with false by lia.
        replace ((cp <=? n) && (n <? cp + Z.of_nat (S count))) with true by lia. reflexivity.
      * replace ((cp + 1 <=? n) && (n <? cp + 1 + Z.of_nat count))
          with ((cp <=? n) && (n <? cp + Z.of_nat (S count))) by lia. reflexivity.
Qed.

Definition as_entry (e : status * option (list Z)) : entry := (fst e, option_map encoding (snd e)).
Lemma read_lines_ok junk lo rows : zlen junk = 100 -> idna_file lo rows -> forall t, 0 <= lo ->
  (forall n, lo <= n -> t n = None) ->
  exists t', read_lines junk rows t = Ok t' /\
  forall n, t' n = if lo <=? n then option_map as_entry (lookup rows n) else t n.
Proof.
  intros J. induction 1 as [|lo hi st m rows L M F IH]; intros t L0 T.
  - exists t. split; [reflexivity|]. intros n. cbn. destruct (_ <=? n) eqn:E; [apply T; lia|reflexivity].
  - cbn [read_lines]. rewrite (mapping_bytes_ok _ _ J M). cbn [bind].
    destruct (fill_range_ok (Z.to_nat (hi - lo + 1)) lo (st, option_map encoding m) t) as (t1 & E1 & Q1);
      [lia|unfold N_CP; lia|intros n Hn; apply T; lia|].
    rewrite E1. cbn [bind]. destruct (IH t1) as (t' & E & Q); [lia| |].
    + intros n Hn. rewrite Q1. replace ((lo <=? n) && (n <? lo + Z.of_nat (Z.to_nat (hi - lo + 1)))) with false by lia. apply T. lia.
    + exists t'. split; [exact E|]. intros n. rewrite Q, Q1. cbn [lookup].
      replace ((lo <=? n) && (n <? lo + Z.of_nat (Z.to_nat (hi - lo + 1)))) with ((lo <=? n) && (n <=? hi)) by lia.
      destruct (Z.leb_spec (hi + 1) n).
      * replace ((lo <=? n) && (n <=? hi)) with false by lia. replace (lo <=? n) with true by lia. reflexivity.
      * destruct ((lo <=? n) && (n <=? hi)) eqn:R; [replace (lo <=? n) with true by lia; reflexivity|].
        replace (lo <=? n) with false by lia. reflexivity.
Qed.

Lemma check_all_ok count : forall cp t, (forall n, cp <= n < cp + Z.of_nat count -> t n <> None) -> check_all count cp t = Ok tt.
Proof.
  induction count as [|count IH]; intros cp t H; [reflexivity|]. cbn [check_all].
  specialize (H cp) as Hc. destruct (t cp); [|destruct Hc; [lia|reflexivity]]. cbn [assert bind].
  apply IH. intros n Hn. apply H. lia.
Qed.

(** * Tests *)

Section Table.
Variables (t : itable) (T : Z -> status) (hi : Z).
Hypothesis Ht : forall cp, 0 <= cp < hi -> status_at t cp = Ok (T cp).

Lemma tests_ok st count : forall cp prev, 0 <= cp -> cp + Z.of_nat count = hi ->
  (0 <= prev -> prev < cp /\ forall n, prev <= n < cp -> T n = st) ->
  exists l, tests count cp prev st t = Ok l /\
  forall x, run_test l x = true <->
    (if prev >=? 0 then prev else cp) <= x /\ T x = st /\ exists y, Z.max x cp <= y < hi /\ T y <> st.
Proof.
  induction count as [|count IH]; intros cp prev L E P; cbn [tests].
  - exists []. split; [reflexivity|]. intros x. cbn [run_test]. split; [discriminate|]. intros (_ & _ & y & Hy & _). lia.
  - rewrite Ht by lia. cbn [bind].
    destruct (status_eqb (T cp) st) eqn:S; cbn [negb]; [apply status_eqb_eq in S|apply status_eqb_neq in S].
    + destruct (prev <? 0) eqn:Hp.
      * destruct (IH (cp + 1) cp) as (l & El & Q); [lia|lia| |].
        { intros _. split; [lia|]. intros n Hn. assert (n = cp) as -> by lia. exact S. }
        exists l. split; [exact El|]. intros x. rewrite Q. replace (cp >=? 0) with true by lia. replace (prev >=? 0) with false by lia.
        split; intros (H1 & H2 & y & Hy & Ty); (split; [exact H1|split; [exact H2|]]); exists y; split; try assumption; [lia|].
        assert (y <> cp) by congruence. lia.
      * destruct (IH (cp + 1) prev) as (l & El & Q); [lia|lia| |].
        { intros _. split; [lia|]. intros n Hn. destruct (Z.eq_dec n cp) as [->|]; [exact S|]. apply P; lia. }
        exists l. split; [exact El|]. intros x. rewrite Q. replace (prev >=? 0) with true by lia.
        split; intros (H1 & H2 & y & Hy & Ty); (split; [exact H1|split; [exact H2|]]); exists y; split; try assumption; [lia|].
        assert (y <> cp) by congruence. lia.
    + destruct (prev >=? 0) eqn:Hp.
      * destruct (IH (cp + 1) (-1)) as (l & El & Q); [lia|lia|lia|]. rewrite El. cbn [bind].
        exists ((cp, prev) :: l). split; [reflexivity|]. intros x. cbn [run_test].
        destruct (Z.ltb_spec x cp) as [Hx|Hx].
        -- split.
           ++ intros H1. split; [lia|]. split; [apply P; lia|]. exists cp. split; [lia|exact S].
           ++ intros (H1 & _). lia.
        -- rewrite Q. change (-1 >=? 0) with false. cbv iota. split; intros (H1 & H2 & y & Hy & Ty).
           ++ split; [lia|]. split; [exact H2|]. exists y. split; [lia|exact Ty].
           ++ assert (x <> cp) by congruence. split; [lia|]. split; [exact H2|]. exists y. split; [|exact Ty]. lia.
      * destruct (IH (cp + 1) prev) as (l & El & Q); [lia|lia|lia|]. rewrite El.
        exists l. split; [reflexivity|]. intros x. rewrite Q. rewrite Hp. split; intros (H1 & H2 & y & Hy & Ty).
        -- split; [lia|]. split; [exact H2|]. exists y. split; [lia|exact Ty].
        -- assert (x <> cp) by congruence. split; [lia|]. split; [exact H2|]. exists y. split; [|exact Ty]. lia.
Qed.

(** * Sets *)

Lemma find_max_ok st count : forall cp mx, 0 <= cp -> cp + Z.of_nat count = hi ->
  exists r, find_max count cp mx st t = Ok r /\
  ((r = mx /\ forall n, cp <= n < hi -> T n <> st) \/
   (cp <= r < hi /\ T r = st /\ forall n, r < n < hi -> T n <> st)).
Proof.
  induction count as [|count IH]; intros cp mx L E; cbn [find_max].
  - exists mx. split; [reflexivity|]. left. split; [reflexivity|]. intros; lia.
  - rewrite Ht by lia. cbn [bind]. destruct (IH (cp + 1) (if status_eqb (T cp) st then cp else mx)) as (r & Er & H); [lia|lia|].
    exists r. split; [exact Er|]. destruct H as [[-> H]|(H1 & H2 & H3)].
    + destruct (status_eqb (T cp) st) eqn:S; [apply status_eqb_eq in S|apply status_eqb_neq in S].
      * right. split; [lia|]. split; [exact S|]. intros n Hn. apply H. lia.
      * left. split; [reflexivity|]. intros n Hn. destruct (Z.eq_dec n cp) as [->|]; [exact S|]. apply H. lia.
    + right. split; [lia|]. split; assumption.
Qed.

Definition bit (set : list Z) (n : Z) : bool := Z.testbit (nth (Z.to_nat (n / 64)) set 0) (n mod 64).

Lemma nth_upd {A} (b : list A) i v j d : (i < length b)%nat ->
  nth j (upd b i v) d = if Nat.eqb j i then v else nth j b d.
Proof.
  intros H. unfold upd. destruct (Nat.lt_trichotomy j i) as [L|[->|L]].
  - rewrite app_nth1 by (rewrite firstn_length; lia). replace (Nat.eqb j i) with false by (symmetry; apply Nat.eqb_neq; lia).
    rewrite <- (firstn_skipn i b) at 2. rewrite app_nth1 by (rewrite firstn_length; lia). reflexivity.
  - rewrite app_nth2 by (rewrite firstn_length; lia). rewrite firstn_length, Nat.min_l by lia. rewrite Nat.sub_diag, Nat.eqb_refl. reflexivity.
  - rewrite app_nth2 by (rewrite firstn_length; lia). rewrite firstn_length, Nat.min_l by lia.
    replace (Nat.eqb j i) with false by (symmetry; apply Nat.eqb_neq; lia).
    destruct (j - i)%nat as [|k] eqn:K; [lia|]. cbn [nth].
    rewrite <- (firstn_skipn (S i) b) at 2. rewrite app_nth2 by (rewrite firstn_length; lia).
    f_equal. rewrite firstn_length. lia.
Qed.
Lemma upd_length {A} (b : list A) i v : (i < length b)%nat -> length (upd b i v) = length b.
Proof. intros H. unfold upd. rewrite app_length, firstn_length. cbn [length]. rewrite skipn_length. lia. Qed.

Lemma fill_set_ok st count : forall cp set, 0 <= cp -> cp + Z.of_nat count <= hi ->
  cp + Z.of_nat count <= 64 * zlen set ->
  exists set', fill_set count cp st t set = Ok set' /\ zlen set' = zlen set /\
  forall n, 0 <= n -> bit set' n = bit set n || ((cp <=? n) && (n <? cp + Z.of_nat count) && status_eqb (T n) st).
Proof.
  induction count as [|count IH]; intros cp set L E B; cbn [fill_set].
  - exists set. split; [reflexivity|]. split; [reflexivity|]. intros n Hn. replace ((cp <=? n) && (n <? cp + Z.of_nat 0)) with false by lia.
    rewrite orb_false_r. reflexivity.
  - rewrite Ht by lia. cbn [bind].
    pose proof (Z.div_mod cp 64 ltac:(lia)) as D. pose proof (Z.mod_pos_bound cp 64 ltac:(lia)) as M.
    destruct (status_eqb (T cp) st) eqn:S.
    + unfold rd, wr. replace (inb set (cp / 64)) with true by (unfold inb, zlen in *; lia). cbn [bind].
      set (set1 := upd _ _ _).
      assert (zlen set1 = zlen set) as Z1 by (unfold zlen, set1; rewrite upd_length; unfold zlen in *; lia).
      destruct (IH (cp + 1) set1) as (set' & E' & Lz & Q); [lia|lia|rewrite Z1; lia|].
      exists set'. split; [exact E'|]. split; [congruence|]. intros n Hn. rewrite Q by exact Hn.
      assert (bit set1 n = bit set n || (n =? cp)) as ->.
      { unfold bit, set1. rewrite nth_upd by (unfold zlen in *; lia).
        pose proof (Z.div_mod n 64 ltac:(lia)). pose proof (Z.mod_pos_bound n 64 ltac:(lia)).
        destruct (Nat.eqb_spec (Z.to_nat (n / 64)) (Z.to_nat (cp / 64))) as [Eq|Ne].
        - assert (n / 64 = cp / 64) as Eq' by lia. rewrite Z.lor_spec, Eq'. f_equal.
          rewrite Z.shiftl_1_l. rewrite Z.pow2_bits_eqb by lia. lia.
        - replace (n =? cp) with false; [rewrite orb_false_r; reflexivity|]. symmetry. apply Z.eqb_neq. intros ->. lia. }
      rewrite <- orb_assoc. f_equal. destruct (Z.eqb_spec n cp) as [->|].
      * rewrite S. replace ((cp <=? cp) && (cp <? cp + Z.of_nat (Datatypes.S count))) with true by lia. reflexivity.
      * replace ((cp + 1 <=? n) && (n <? cp + 1 + Z.of_nat count)) with ((cp <=? n) && (n <? cp + Z.of_nat (Datatypes.S count))) by lia.
        reflexivity.
    + cbn [bind]. destruct (IH (cp + 1) set) as (set' & E' & Lz & Q); [lia|lia|lia|].
      exists set'. split; [exact E'|]. split; [exact Lz|]. intros n Hn. rewrite Q by exact Hn. f_equal.
      destruct (Z.eqb_spec n cp) as [->|].
      * rewrite S, !andb_false_r. reflexivity.
      * replace ((cp + 1 <=? n) && (n <? cp + 1 + Z.of_nat count)) with ((cp <=? n) && (n <? cp + Z.of_nat (Datatypes.S count))) by lia.
        reflexivity.
Qed.

Lemma bit_repeat k n : bit (repeat 0 k) n = false.
Proof.
  unfold bit. assert (nth (Z.to_nat (n / 64)) (repeat 0 k) 0 = 0) as ->; [|apply Z.testbit_0_l].
  generalize (Z.to_nat (n / 64)). induction k as [|k IH]; intros [|i]; cbn; auto.
Qed.
Lemma land_bit w k : 0 <= k -> truth (Z.land w (Z.shiftl 1 k)) = Z.testbit w k.
Proof.
  intros K. rewrite Z.shiftl_1_l. unfold truth. destruct (Z.testbit w k) eqn:B.
  - destruct (Z.eqb_spec (Z.land w (2 ^ k)) 0) as [E|]; [|reflexivity].
    assert (Z.testbit (Z.land w (2 ^ k)) k = true) as X by (rewrite Z.land_spec, B, Z.pow2_bits_true by lia; reflexivity).
    rewrite E, Z.testbit_0_l in X. discriminate.
  - replace (Z.land w (2 ^ k)) with 0; [reflexivity|]. symmetry. apply Z.bits_inj'. intros n Hn.
    rewrite Z.land_spec, Z.testbit_0_l, Z.pow2_bits_eqb by lia. destruct (Z.eqb_spec k n) as [->|]; [rewrite B; reflexivity|apply andb_false_r].
Qed.

Lemma set_ok st mx count : Z.of_nat count = hi -> 1 <= mx < hi -> T mx = st -> (forall n, mx < n < hi -> T n <> st) ->
  exists set max_on,
    (max_on <- find_max count 0 (-1) st t ;;
     let set_size := Z.quot (max_on + 63) 64 in
     set <- fill_set (Z.to_nat max_on) 0 st t (repeat 0 (Z.to_nat set_size)) ;;
     _ <- rd set (set_size - 1) ;; Ok (max_on, set)) = Ok (max_on, set) /\
  forall cp, 0 <= cp -> run_set (max_on, set) cp =
    if cp =? mx then if mx mod 64 =? 0 then UB else Ok false
    else Ok ((cp <? mx) && status_eqb (T cp) st).
Proof.
  intros C M Tm Hm. destruct (find_max_ok st count 0 (-1)) as (r & Er & H); [lia|lia|].
  assert (r = mx) as ->.
  { destruct H as [[_ H]|(H1 & H2 & H3)]; [destruct (H mx); [lia|exact Tm]|].
    destruct (Z.lt_trichotomy r mx) as [X|[X|X]]; [destruct (H3 mx); [lia|exact Tm]|exact X|destruct (Hm r); [lia|exact H2]]. }
  rewrite Er. cbn [bind]. cbv zeta. rewrite Z.quot_div_nonneg by lia.
  assert (zlen (repeat 0 (Z.to_nat ((mx + 63) / 64))) = (mx + 63) / 64) as Lz.
  { unfold zlen. rewrite repeat_length. lia. }
  destruct (fill_set_ok st (Z.to_nat mx) 0 (repeat 0 (Z.to_nat ((mx + 63) / 64)))) as (set & Es & Ls & Q); [lia|lia|rewrite Lz; lia|].
  rewrite Es. cbn [bind]. unfold rd at 1. replace (inb set ((mx + 63) / 64 - 1)) with true by (unfold inb; lia). cbn [bind].
  exists set, mx. split; [reflexivity|]. intros cp Hc. unfold run_set. rewrite Z.quot_div_nonneg, Z.rem_mod_nonneg by lia.
  pose proof (Z.div_mod cp 64 ltac:(lia)). pose proof (Z.mod_pos_bound cp 64 ltac:(lia)).
  destruct (Z.eqb_spec cp mx) as [->|Hne].
  - replace (mx >? mx) with false by lia. unfold rd. destruct (Z.eqb_spec (mx mod 64) 0) as [E0|E0].
    + replace (inb set (mx / 64)) with false by (unfold inb; lia). reflexivity.
    + replace (inb set (mx / 64)) with true by (unfold inb; lia). cbn [bind].
      replace (mx mod 64 <? 0) with false by lia. rewrite land_bit by lia.
      change (Z.testbit (nth (Z.to_nat (mx / 64)) set 0) (mx mod 64)) with (bit set mx). rewrite Q, bit_repeat by lia.
      replace ((0 <=? mx) && (mx <? 0 + Z.of_nat (Z.to_nat mx))) with false by lia. reflexivity.
  - destruct (cp >? mx) eqn:G; [replace (cp <? mx) with false by lia; reflexivity|].
    unfold rd. replace (inb set (cp / 64)) with true by (unfold inb; lia). cbn [bind].
    replace (cp mod 64 <? 0) with false by lia. rewrite land_bit by lia.
    change (Z.testbit (nth (Z.to_nat (cp / 64)) set 0) (cp mod 64)) with (bit set cp). rewrite Q, bit_repeat by lia.
    replace (cp <? mx) with true by lia. replace ((0 <=? cp) && (cp <? 0 + Z.of_nat (Z.to_nat mx))) with true by lia. reflexivity.
Qed.
End Table.

(** * Mappings *)

Definition mapped_to (t : itable) (cp : Z) : option (list Z) :=
  match t cp with Some (_, Some (c :: m)) => Some (c :: m) | _ => None end.

Lemma entries_step count cp t : mapping_entries (S count) cp t =
  match mapped_to t cp with Some m => (cp, m) :: mapping_entries count (cp + 1) t | None => mapping_entries count (cp + 1) t end.
Proof. cbn [mapping_entries]. unfold mapped_to. destruct (t cp) as [[s [[|c m]|]]|]; reflexivity. Qed.

Fixpoint sorted_from (lo : Z) (l : list (Z * list Z)) : Prop :=
  match l with [] => True | (a, _) :: l => lo <= a /\ sorted_from (a + 1) l end.
Lemma sorted_weaken l : forall lo lo', lo' <= lo -> sorted_from lo l -> sorted_from lo' l.
Proof. destruct l as [|[a m] l]; cbn; [auto|]. intros lo lo' H [H1 H2]. split; [lia|exact H2]. Qed.
Lemma entries_sorted count : forall cp t, sorted_from cp (mapping_entries count cp t).
Proof.
  induction count as [|count IH]; intros cp t; [exact I|]. rewrite entries_step.
  destruct (mapped_to t cp); [split; [lia|apply IH]|]. apply sorted_weaken with (cp + 1); [lia|apply IH].
Qed.
Lemma entries_in count : forall cp t a m,
  In (a, m) (mapping_entries count cp t) <-> cp <= a < cp + Z.of_nat count /\ mapped_to t a = Some m.
Proof.
  induction count as [|count IH]; intros cp t a m; [cbn; split; [intros []|lia]|]. rewrite entries_step.
  destruct (mapped_to t cp) as [m'|] eqn:E.
  - cbn [In]. rewrite IH. split.
    + intros [[= -> ->]|[H1 H2]]; [split; [lia|exact E]|split; [lia|exact H2]].
    + intros [H1 H2]. destruct (Z.eq_dec cp a) as [->|]; [left; congruence|right; split; [lia|exact H2]].
  - rewrite IH. split; intros [H1 H2]; (split; [|exact H2]); [lia|]. destruct (Z.eq_dec cp a) as [->|]; [congruence|lia].
Qed.

Lemma sorted_nth l : forall lo i j d, sorted_from lo l -> (i < j < length l)%nat -> fst (nth i l d) < fst (nth j l d).
Proof.
  induction l as [|[a m] l IH]; intros lo i j d S H; [cbn in H; lia|]. cbn [length] in H. destruct S as [S1 S2].
  destruct j as [|j]; [lia|]. destruct i as [|i].
  - cbn [nth fst]. assert (forall lo l k, sorted_from lo l -> (k < length l)%nat -> lo <= fst (nth k l d)) as X.
    { clear. intros lo l. revert lo. induction l as [|[b n] l IH]; intros lo k S K; [cbn in K; lia|]. destruct S as [S1 S2].
      destruct k as [|k]; cbn [nth fst]; [exact S1|]. cbn in K. specialize (IH (b + 1) k S2 ltac:(lia)). lia. }
    specialize (X (a + 1) l j S2 ltac:(lia)). lia.
  - cbn [nth]. apply (IH (a + 1)); [exact S2|lia].
Qed.
Lemma nth_order l lo i j : sorted_from lo l -> 0 <= i < zlen l -> 0 <= j < zlen l ->
  fst (nth (Z.to_nat i) l (0, [])) < fst (nth (Z.to_nat j) l (0, [])) -> i < j.
Proof.
  intros S Hi Hj H. destruct (Z.lt_ge_cases i j) as [|G]; [assumption|]. exfalso. unfold zlen in *.
  destruct (Z.eq_dec i j) as [->|]; [lia|]. pose proof (sorted_nth l lo (Z.to_nat j) (Z.to_nat i) (0, []) S ltac:(lia)). lia.
Qed.

Lemma search_ok l lo cp fuel : sorted_from lo l -> forall low high,
  0 <= low <= high -> high < zlen l -> high - low < Z.of_nat fuel ->
  cp <= fst (nth (Z.to_nat high) l (0, [])) -> (forall i, 0 <= i < low -> fst (nth (Z.to_nat i) l (0, [])) < cp) ->
  exists r, search fuel l cp low high = Ok r /\ 0 <= r < zlen l /\ cp <= fst (nth (Z.to_nat r) l (0, [])) /\
    forall i, 0 <= i < r -> fst (nth (Z.to_nat i) l (0, [])) < cp.
Proof.
  intros S. induction fuel as [|fuel IH]; intros low high B H F Hc Hl; [lia|]. cbn [search].
  destruct (Z.ltb_spec low high) as [L|L].
  - cbv zeta. rewrite Z.quot_div_nonneg by lia. set (m := (4 * low + high) / 5).
    assert (low <= m < high) as M by (unfold m; lia).
    unfold mapping_at. replace (inb l m) with true by (unfold inb; lia). cbn [bind].
    destruct (nth (Z.to_nat m) l (0, [])) as [from to] eqn:E.
    assert (fst (nth (Z.to_nat m) l (0, [])) = from) as Ef by (rewrite E; reflexivity).
    destruct (Z.ltb_spec from cp) as [X|X].
    + apply IH; [lia|lia|lia|exact Hc|]. intros i Hi. destruct (Z.eq_dec i m) as [->|]; [lia|].
      destruct (Z.lt_ge_cases i low); [apply Hl; lia|]. unfold zlen in *.
      pose proof (sorted_nth l lo (Z.to_nat i) (Z.to_nat m) (0, []) S ltac:(lia)). lia.
    + apply IH; [lia|lia|lia|lia|]. exact Hl.
  - exists high. split; [reflexivity|]. split; [lia|]. split; [exact Hc|]. intros i Hi. apply Hl. lia.
Qed.

Lemma last_nth (l : list Z) d : l <> [] -> last l d = nth (length l - 1) l d.
Proof.
  induction l as [|x l IH]; [congruence|]. intros _. destruct l as [|y l]; [reflexivity|].
  change (last (x :: y :: l) d) with (last (y :: l) d). rewrite IH by discriminate. cbn [length]. replace (S (S (length l)) - 1)%nat with (S (S (length l) - 1))%nat by lia. reflexivity.
Qed.

Lemma run_mapping_ok (l : list (Z * list Z)) lo cp : sorted_from lo l -> l <> [] ->
  exists r, run_mapping (hd (-1) (map fst l), last (map fst l) (-1), l) cp = Ok r /\
  forall m, r = Some m <-> In (cp, m) l.
Proof.
  intros S Ne. unfold run_mapping.
  assert (0 < zlen l) as Lp by (unfold zlen; destruct l; [congruence|cbn [length]; lia]).
  assert (hd (-1) (map fst l) = fst (nth 0 l (0, []))) as Hh by (destruct l as [|[a m] l]; [congruence|reflexivity]).
  assert (last (map fst l) (-1) = fst (nth (length l - 1) l (0, []))) as Hla.
  { rewrite last_nth by (destruct l; [congruence|discriminate]). rewrite map_length.
    rewrite (nth_indep _ (-1) (fst (0, @nil Z))) by (rewrite map_length; unfold zlen in Lp; lia). apply map_nth. }
  assert (forall m, In (cp, m) l -> exists i, 0 <= i < zlen l /\ nth (Z.to_nat i) l (0, []) = (cp, m)) as Hin.
  { intros m I. apply (In_nth _ _ (0, [])) in I. destruct I as (i & Hi & E). exists (Z.of_nat i). rewrite Nat2Z.id. unfold zlen. split; [lia|exact E]. }
  destruct ((cp <? hd (-1) (map fst l)) || (cp >? last (map fst l) (-1))) eqn:G.
  - exists None. split; [reflexivity|]. intros m. split; [discriminate|]. intros I. exfalso. destruct (Hin m I) as (i & Hi & E).
    rewrite Hh, Hla in G. unfold zlen in *.
    assert (fst (nth (Z.to_nat i) l (0, [])) = cp) as Ec by (rewrite E; reflexivity).
    apply orb_prop in G. destruct G as [G|G].
    + destruct (Z.eq_dec i 0) as [->|]; [change (Z.to_nat 0) with O in Ec; lia|].
      pose proof (sorted_nth l lo 0 (Z.to_nat i) (0, []) S ltac:(lia)). lia.
    + destruct (Nat.eq_dec (Z.to_nat i) (length l - 1)) as [Ei|]; [rewrite Ei in Ec; lia|].
      pose proof (sorted_nth l lo (Z.to_nat i) (length l - 1) (0, []) S ltac:(lia)). lia.
  - destruct (search_ok l lo cp (Datatypes.S (length l)) S 0 (zlen l - 1)) as (r & Er & Br & Hr & Hlo);
      [lia|lia|unfold zlen; lia| |intros; lia|].
    { rewrite Hla in G. replace (Z.to_nat (zlen l - 1)) with (length l - 1)%nat by (unfold zlen; lia). lia. }
    rewrite Er. cbn [bind]. unfold mapping_at. replace (inb l r) with true by (unfold inb; lia). cbn [bind].
    destruct (nth (Z.to_nat r) l (0, [])) as [from to] eqn:E. cbn [fst] in Hr.
    destruct (Z.eqb_spec from cp) as [->|Hne]; cbn [negb].
    + exists (Some to). split; [reflexivity|]. intros m. split.
      * intros [= <-]. rewrite <- E. apply nth_In. unfold zlen in Br. lia.
      * intros I. destruct (Hin m I) as (i & Hi & Ei). f_equal.
        assert (i = r) as ->; [|congruence]. destruct (Z.lt_trichotomy i r) as [X|[X|X]]; [|exact X|].
        -- specialize (Hlo i ltac:(lia)). rewrite Ei in Hlo. cbn in Hlo. lia.
        -- unfold zlen in *. pose proof (sorted_nth l lo (Z.to_nat r) (Z.to_nat i) (0, []) S ltac:(lia)) as Y. rewrite E, Ei in Y. cbn in Y. lia.
    + exists None. split; [reflexivity|]. intros m. split; [discriminate|]. intros I. exfalso. destruct (Hin m I) as (i & Hi & Ei).
      destruct (Z.lt_trichotomy i r) as [X|[X|X]].
      * specialize (Hlo i ltac:(lia)). rewrite Ei in Hlo. cbn in Hlo. lia.
      * subst i. congruence.
      * unfold zlen in *. pose proof (sorted_nth l lo (Z.to_nat r) (Z.to_nat i) (0, []) S ltac:(lia)) as Y. rewrite E, Ei in Y. cbn in Y. lia.
Qed.

(** * The generator as a whole *)

Definition T_of (rows : list idna_row) (cp : Z) : status := match lookup rows cp with Some (s, _) => s | None => Valid end.

(** What the written file does. *)
Definition right_test (rows : list idna_row) (st : status) (l : list (Z * Z)) : Prop :=
  forall cp, run_test l cp = true <-> exists m, says rows cp st m /\ ~ to_the_end rows cp st.
Definition right_set (rows : list idna_row) (st : status) (c : Z * list Z) : Prop :=
  forall mx, largest rows st mx -> 1 <= mx -> forall cp, 0 <= cp -> 
    (cp <> mx -> exists b, run_set c cp = Ok b /\ (b = true <-> exists m, says rows cp st m)) /\
    (cp = mx -> run_set c cp = if mx mod 64 =? 0 then UB else Ok false).
Definition right_mapping (rows : list idna_row) (c : Z * Z * list (Z * list Z)) : Prop :=
  (exists cp st m, says rows cp st m /\ mapping_of m <> None) -> forall cp,
  (forall st m, says rows cp st m -> run_mapping c cp = Ok (mapping_of m)) /\
  (~ 0 <= cp <= 0x10FFFF -> run_mapping c cp = Ok None).

Lemma gen_ok junk rows mv mm : zlen junk = 100 -> idna_file 0 rows ->
  largest rows Valid mv -> 1 <= mv -> largest rows Mapped mm -> 1 <= mm ->
  exists c, gen_idna_table junk rows = Ok c /\
    right_test rows Deviation (code_deviation c) /\ right_test rows Disallowed (code_disallowed c) /\
    right_test rows Std3_valid (code_std3_valid c) /\ right_test rows Std3_mapped (code_std3_mapped c) /\
    right_test rows Ignored (code_ignored c) /\
    right_set rows Mapped (code_mapped c) /\ right_set rows Valid (code_valid c) /\
    right_mapping rows (code_mappings c).
Proof.
  intros J F Lv Pv Lm Pm. unfold gen_idna_table.
  destruct (read_lines_ok junk 0 rows J F (fun _ => None)) as (t & Et & Q); [lia|reflexivity|]. rewrite Et. cbn [bind].
  assert (Hx : forall cp, 0 <= cp -> t cp = option_map as_entry (lookup rows cp)).
  { intros cp H. rewrite Q. replace (0 <=? cp) with true by lia. reflexivity. }
  assert (Hs : forall cp, 0 <= cp < N_CP -> status_at t cp = Ok (T_of rows cp)).
  { intros cp H. unfold status_at, T_of. rewrite Hx by lia. destruct (lookup_total _ _ F cp H) as ([s m] & E). rewrite E. reflexivity. }
  assert (Hsays : forall cp st, 0 <= cp < N_CP -> (T_of rows cp = st <-> exists m, says rows cp st m)).
  { intros cp st H. unfold T_of. destruct (lookup_total _ _ F cp H) as ([s m] & E). rewrite E. split.
    - intros <-. exists m. apply (says_lookup _ _ F). exact E.
    - intros (m' & S). apply (says_lookup _ _ F) in S. congruence. }
  rewrite check_all_ok.
  2:{ intros n Hn. rewrite Hx by lia. destruct (lookup_total _ _ F n) as (e & E); [unfold N_CP in *; lia|]. rewrite E. discriminate. }
  cbn [bind].
  assert (Ht : forall st, exists l, generate_test st t = Ok l /\ right_test rows st l).
  { intros st. destruct (tests_ok t (T_of rows) N_CP Hs st (Z.to_nat N_CP) 0 (-1)) as (l & El & P); [lia|unfold N_CP; lia|lia|].
    exists l. split; [exact El|]. intros cp. rewrite P. change (-1 >=? 0) with false. cbv iota. split.
    - intros (H1 & H2 & y & Hy & Ty). assert (0 <= cp < N_CP) as R by lia. apply Hsays in H2; [|exact R]. destruct H2 as (m & S).
      exists m. split; [exact S|]. intros E. apply Ty. destruct (lookup_total _ _ F y) as ([s' m'] & E'); [lia|].
      apply Hsays; [lia|]. exists m'. rewrite <- (E y s' m'); [|lia|]; apply (says_lookup _ _ F); exact E'.
    - intros (m & S & E). pose proof (says_range _ _ F _ _ _ S) as R. split; [lia|]. split; [apply Hsays; [exact R|exists m; exact S]|].
      (* search upwards *)
      assert (forall k : nat, (forall y, cp <= y < cp + Z.of_nat k -> y < N_CP -> T_of rows y = st) \/ exists y, cp <= y < N_CP /\ T_of rows y <> st) as D.
      { induction k as [|k IH]; [left; intros; lia|]. destruct IH as [IH|IH]; [|right; exact IH].
        destruct (Z.lt_ge_cases (cp + Z.of_nat k) N_CP) as [X|X].
        - destruct (status_eqb (T_of rows (cp + Z.of_nat k)) st) eqn:Y; [apply status_eqb_eq in Y|apply status_eqb_neq in Y].
          + left. intros y Hy HN. destruct (Z.eq_dec y (cp + Z.of_nat k)) as [->|]; [exact Y|]. apply IH; lia.
          + right. exists (cp + Z.of_nat k). split; [lia|exact Y].
        - left. intros y Hy HN. apply IH; lia. }
      destruct (D (Z.to_nat (N_CP - cp))) as [D1|(y & Hy & Ty)]; [|exists y; split; [lia|exact Ty]].
      destruct E. intros n st' m' Hn Sn. pose proof (says_range _ _ F _ _ _ Sn).
      assert (T_of rows n = st') as <- by (apply Hsays; [lia|exists m'; exact Sn]). apply D1; lia. }
  assert (Hset : forall st mx, largest rows st mx -> 1 <= mx -> exists c, generate_set st t = Ok c /\ right_set rows st c).
  { intros st mx [(m & S) U] P. pose proof (says_range _ _ F _ _ _ S) as R.
    destruct (set_ok t (T_of rows) N_CP Hs st mx (Z.to_nat N_CP)) as (set & mo & E & G); [unfold N_CP; lia|lia|apply Hsays; [lia|exists m; exact S]| |].
    { intros n Hn Tn. apply Hsays in Tn; [|lia]. destruct Tn as (m' & S'). specialize (U n m' S'). lia. }
    exists (mo, set). split; [exact E|]. intros mx' [(m2 & S2) U2] P' cp Hc.
    assert (mx' = mx) as -> by (specialize (U2 _ _ S); specialize (U _ _ S2); lia).
    rewrite G by exact Hc. split.
    - intros Ne. replace (cp =? mx) with false by lia. eexists. split; [reflexivity|]. split.
      + intros B. apply andb_prop in B. destruct B as [B1 B2]. apply status_eqb_eq in B2. apply Hsays; [lia|exact B2].
      + intros (m' & S'). specialize (U _ _ S') as U'. replace (cp <? mx) with true by lia. cbn [andb].
        apply status_eqb_eq. apply Hsays; [lia|exists m'; exact S'].
    - intros ->. rewrite Z.eqb_refl. reflexivity. }
  destruct (Ht Deviation) as (l1 & E1 & R1), (Ht Disallowed) as (l2 & E2 & R2), (Ht Std3_valid) as (l3 & E3 & R3),
    (Ht Std3_mapped) as (l4 & E4 & R4), (Ht Ignored) as (l5 & E5 & R5).
  rewrite E1. cbn [bind]. rewrite E2. cbn [bind]. rewrite E3. cbn [bind]. rewrite E4. cbn [bind]. rewrite E5. cbn [bind].
  destruct (Hset Mapped mm Lm Pm) as (c1 & E6 & R6), (Hset Valid mv Lv Pv) as (c2 & E7 & R7).
  rewrite E6. cbn [bind]. rewrite E7. cbn [bind].
  eexists. split; [reflexivity|]. cbn [code_deviation code_disallowed code_std3_valid code_std3_mapped code_ignored code_mapped code_valid code_mappings].
  do 7 (split; [assumption|]).
  assert (Hm : forall cp st m, says rows cp st m -> mapped_to t cp = mapping_of m).
  { intros cp st m S. pose proof (says_range _ _ F _ _ _ S) as R. apply (says_lookup _ _ F) in S. unfold mapped_to. rewrite Hx by lia. rewrite S.
    cbn [option_map as_entry fst snd]. destruct m as [[|c m]|]; try reflexivity. cbn [option_map mapping_of].
    destruct (encoding (c :: m)) as [|x y] eqn:En; [|reflexivity]. exfalso. unfold encoding in En. cbn [flat_map] in En.
    apply app_eq_nil in En. destruct En as [En _]. revert En. unfold utf8. destruct (c <? 128); [discriminate|]. destruct (c <? 2048); [discriminate|]. destruct (c <? 65536); discriminate. }
  intros (cp0 & st0 & m0 & S0 & N0) cp. unfold generate_mappings. cbv zeta. set (l := mapping_entries _ _ _).
  assert (l <> []) as Ne.
  { intros E. destruct (mapping_of m0) as [x|] eqn:Ex; [|congruence]. pose proof (says_range _ _ F _ _ _ S0).
    assert (In (cp0, x) l) as I by (apply entries_in; split; [unfold N_CP in *; lia|rewrite (Hm _ _ _ S0); exact Ex]).
    rewrite E in I. destruct I. }
  destruct (run_mapping_ok l 0 cp) as (r & Er & Hr); [apply entries_sorted|exact Ne|]. rewrite Er. split.
  - intros st m S. pose proof (says_range _ _ F _ _ _ S). f_equal.
    destruct (mapping_of m) as [x|] eqn:Ex.
    + apply Hr. apply entries_in. split; [unfold N_CP in *; lia|]. rewrite (Hm _ _ _ S). exact Ex.
    + destruct r as [y|]; [|reflexivity]. exfalso. destruct (Hr y) as [H1 _]. specialize (H1 eq_refl). apply entries_in in H1. destruct H1 as [_ H1].
      rewrite (Hm _ _ _ S) in H1. congruence.
  - intros R. f_equal. destruct r as [y|]; [|reflexivity]. exfalso. destruct (Hr y) as [H1 _]. specialize (H1 eq_refl). apply entries_in in H1.
    destruct H1 as [H1 _]. unfold N_CP in H1. lia.
Qed.
