(** Composition does not depend on whether Hangul syllables have been decomposed before. *)
From Verif Require Import Base CMem CharstrSpec Utf8Spec.
From Verif Require Import UcdData NormModel NormSpec NormTables NormFacts NormOrder NormBytes NormDecompose NormRecompose NormMain.
From Coq Require Import ZifyBool ZifyNat.
#[local] Opaque decomposition_data ccc_data exclusion_data nfc_qc_data nfd_qc_data.
Arguments charstr_unicode_canonical_combining_class : simpl never.

Lemma cst_fresh st c : hangul c = true -> (forall x, hg x c = None) ->
  cst st c = CS (cflat st) c [].
Proof.
  intros H N. pose proof (ccc_hangul _ H) as C.
  assert (J : forall x, join x c = None).
  { intros x. unfold join. destruct (tb x c) as [p|] eqn:E; [|apply N]. apply tb_hangul in E as (_ & E & _). congruence. }
  destruct st as [out|pre l mid]; unfold cst; cbn [cstep cflat].
  - rewrite C. reflexivity.
  - rewrite J. unfold ckeep. rewrite C. cbn [Z.eqb]. destruct (cblocked mid c); reflexivity.
Qed.
Lemma cst_join pre x c p : hangul x = true -> hg x c = Some p -> cst (CS pre x []) c = CS pre p [].
Proof.
  intros H E. unfold cst. cbn [cstep cblocked existsb]. unfold join. rewrite tb_none_l by exact H. rewrite E. reflexivity.
Qed.
Lemma cst_syllable st l v t cp : syllable l v t cp -> fold_left cst (jamo l v t) st = cst st cp.
Proof.
  intros S. assert (Y : is_syllable cp = true) by (apply is_syllable_ok; eauto). destruct S as (Hl & Hv & Ht & E).
  rewrite (cst_fresh st cp).
  2: apply is_syllable_hangul; exact Y.
  2: { intros x. unfold hg. unfold is_syllable in Y. replace ((0x1161 <=? cp) && (cp <? 0x1161 + 21)) with false by lia.
       replace ((0x11A7 <? cp) && (cp <? 0x11A7 + 28)) with false by lia. rewrite !andb_false_r. reflexivity. }
  assert (hangul (0x1100 + l) = true) as HL by (unfold hangul; lia).
  assert (E2 : hg (0x1100 + l) (0x1161 + v) = Some (0xAC00 + (l * 21 + v) * 28)).
  { unfold hg. replace ((0x1100 <=? 0x1100 + l) && (0x1100 + l <? 0x1100 + 19)) with true by lia.
    replace ((0x1161 <=? 0x1161 + v) && (0x1161 + v <? 0x1161 + 21)) with true by lia. cbn [andb]. f_equal. lia. }
  assert (E3 : fold_left cst [0x1100 + l; 0x1161 + v] st = CS (cflat st) (0xAC00 + (l * 21 + v) * 28) []).
  { cbn [fold_left]. rewrite (cst_fresh st (0x1100 + l) HL).
    2: { intros x. unfold hg. replace ((0x1161 <=? 0x1100 + l) && (0x1100 + l <? 0x1161 + 21)) with false by lia.
         replace ((0x11A7 <? 0x1100 + l) && (0x1100 + l <? 0x11A7 + 28)) with false by lia. rewrite !andb_false_r. reflexivity. }
    apply cst_join; assumption. }
  unfold jamo. rewrite fold_left_app. cbn [app] in E3. rewrite E3. clear E2 E3. destruct (t =? 0) eqn:Et.
  - cbn [fold_left]. f_equal. lia.
  - cbn [fold_left]. apply cst_join; [unfold hangul; lia|].
    unfold hg. replace ((0x1100 <=? 0xAC00 + (l * 21 + v) * 28) && (0xAC00 + (l * 21 + v) * 28 <? 0x1100 + 19)) with false by lia. cbn [andb].
    replace (is_syllable (0xAC00 + (l * 21 + v) * 28)) with true by (unfold is_syllable; lia).
    replace ((0xAC00 + (l * 21 + v) * 28 - 0xAC00) mod 28) with 0.
    2: { replace (0xAC00 + (l * 21 + v) * 28 - 0xAC00) with ((l * 21 + v) * 28) by lia. rewrite Z.mod_mul by lia. reflexivity. }
    replace ((0x11A7 <? 0x11A7 + t) && (0x11A7 + t <? 0x11A7 + 28)) with true by lia. cbn [andb Z.eqb]. f_equal. lia.
Qed.

Definition same (a b : list Z) : Prop := fold_left cst a (CI []) = fold_left cst b (CI []).
Definition same2 (x y : list Z * list Z) : Prop := same (fst x) (fst y) /\ snd x = snd y.
Lemma same_app a b c : same a b -> same (a ++ c) (b ++ c).
Proof. unfold same. rewrite !fold_left_app. intros ->. reflexivity. Qed.
Lemma same2_step x y c : same2 x y -> same2 (ostep x c) (ostep y c).
Proof.
  destruct x as [p r], y as [p' r']. intros [A B]. cbn [fst snd] in *. subst r'. cbn [ostep]. destruct (ccc c =? 0).
  - split; [cbn [fst]; apply same_app; exact A|reflexivity].
  - split; [exact A|reflexivity].
Qed.
Lemma same2_fold s : forall x y, same2 x y -> same2 (fold_left ostep s x) (fold_left ostep s y).
Proof. induction s as [|c s IH]; intros x y H; [exact H|]. cbn [fold_left]. apply IH, same2_step, H. Qed.
Lemma ostep_starters s : Forall (fun c => ccc c = 0) s -> s <> [] -> forall p r, fold_left ostep s (p, r) = (p ++ r ++ s, []).
Proof.
  induction 1 as [|c s C F IH]; [congruence|]. intros _ p r. cbn [fold_left]. cbn [ostep]. rewrite C. cbn [Z.eqb].
  destruct s as [|d s]; [reflexivity|]. rewrite IH by discriminate. cbn [app]. rewrite <- !app_assoc. reflexivity.
Qed.
Lemma same2_syllable p p' r cp : is_syllable cp = true -> same p p' -> same2 (fold_left ostep [cp] (p, r)) (fold_left ostep (fd cp) (p', r)).
Proof.
  intros Y S. pose proof Y as Y'. apply is_syllable_ok in Y' as (l & v & t & K). rewrite (fd_syllable _ _ _ _ K).
  rewrite !ostep_starters.
  - split; [|reflexivity]. cbn [fst]. unfold same in *. rewrite !app_assoc, !(fold_left_app cst _ [cp]), (fold_left_app cst _ (jamo l v t)). cbn [fold_left].
    rewrite (cst_syllable _ _ _ _ _ K). f_equal. rewrite !fold_left_app, S. reflexivity.
  - destruct K as (Hl & Hv & Ht & _). apply Forall_forall. intros x I. apply ccc_hangul. apply (jamo_hangul l v t x Hl Hv Ht I).
  - unfold jamo. discriminate.
  - constructor; [apply ccc_hangul, is_syllable_hangul; exact Y|constructor].
  - discriminate.
Qed.
Lemma variant_same cps rs : Forall2 variant cps rs -> forall x y, same2 x y -> same2 (fold_left ostep (concat rs) x) (fold_left ostep (fds cps) y).
Proof.
  induction 1 as [|cp r cps rs V _ IH]; intros x y H; [exact H|]. cbn [concat]. rewrite fds_cons, !fold_left_app. apply IH.
  destruct V as [->|[Y ->]]; [apply same2_fold; exact H|]. destruct x as [p r], y as [p' r']. destruct H as [A B]. cbn [fst snd] in *. subst r'.
  apply same2_syllable; assumption.
Qed.
(** What is composed from the output of decomposition is always the NFC form. *)
Lemma variant_composed cps rs t : Forall2 variant cps rs -> exchanges (concat rs) t -> ordered t -> composed t = composed (osort (fds cps)).
Proof.
  intros V E O. apply exchanges_osort in E. rewrite (osort_of_ordered t O) in E. rewrite <- E. unfold osort.
  destruct (variant_same cps rs V ([], []) ([], [])) as [A B]; [split; reflexivity|].
  unfold composed, oflat. rewrite B. rewrite (same_app _ _ _ A). reflexivity.
Qed.

(** A starter separates what is before it from what is after it. *)
Lemma ostep_frame s : forall p u r, fold_left ostep s (u ++ p, r) = (u ++ fst (fold_left ostep s (p, r)), snd (fold_left ostep s (p, r))).
Proof.
  induction s as [|c s IH]; intros p u r; [reflexivity|]. cbn [fold_left ostep]. destruct (ccc c =? 0).
  - rewrite <- !app_assoc. apply IH.
  - apply IH.
Qed.
Lemma osort_starter a c b : ccc c = 0 -> osort (a ++ c :: b) = osort a ++ c :: osort b.
Proof.
  intros C. unfold osort. rewrite fold_left_app. cbn [fold_left]. destruct (fold_left ostep a ([], [])) as [p r]. cbn [ostep]. rewrite C. cbn [Z.eqb].
  rewrite <- (app_nil_r (p ++ r ++ [c])). rewrite ostep_frame. unfold oflat. cbn [fst snd]. rewrite <- !app_assoc. reflexivity.
Qed.
Lemma ccc_0 : ccc 0 = 0.
Proof. vm_compute. reflexivity. Qed.
Lemma fd_0 : fd 0 = [0].
Proof. apply fd_plain. reflexivity. Qed.
Lemma variant_nonzero cps rs : Forall2 variant cps rs -> Forall nonzero cps -> Forall nonzero (concat rs).
Proof.
  induction 1 as [|cp x cps rs V _ IH]; intros N; [constructor|]. inversion_clear N as [|? ? N1 N2]. cbn [concat]. apply Forall_app.
  split; [|auto]. destruct V as [->|[_ ->]]; [unfold fd; apply full_nonzero; exact N1|constructor; [exact N1|constructor]].
Qed.
Lemma variant_split a : forall b rs, Forall2 variant (a ++ 0 :: b) rs ->
  exists ra rb, Forall2 variant a ra /\ Forall2 variant b rb /\ concat rs = concat ra ++ 0 :: concat rb.
Proof.
  induction a as [|c a IH]; intros b rs V; cbn [app] in V; inversion V as [|? x ? rs' V1 V2]; subst.
  - exists [], rs'. split; [constructor|]. split; [exact V2|]. cbn [concat app]. destruct V1 as [->|[Y _]]; [rewrite fd_0; reflexivity|discriminate].
  - destruct (IH b rs' V2) as (ra & rb & A & B & E). exists (x :: ra), rb. split; [constructor; assumption|]. split; [exact B|].
    cbn [concat]. rewrite E, <- app_assoc. reflexivity.
Qed.
