(** charstr_unicode_decompose: sorting on bytes, and the whole function. *)
From Verif Require Import Base CMem CharstrModel CharstrSpec CharstrProofs Utf8Model Utf8Spec Utf8Proofs.
From Verif Require Import UcdData NormModel NormSpec NormTables NormFacts NormOrder NormBytes.
From Coq Require Import ZifyBool ZifyNat.

#[local] Opaque decomposition_data ccc_data exclusion_data nfc_qc_data nfd_qc_data.

(** * Sorting *)

Lemma total_nonneg l : 0 <= total l.
Proof. induction l as [|c l IH]; [cbn; lia|]. change (total (c :: l)) with (width c + total l). pose proof (width_pos c). lia. Qed.
Lemma encs_length l : Forall scalar l -> (length l <= length (encs l))%nat.
Proof.
  induction 1 as [|c l S _ IH]; [cbn; lia|]. rewrite encs_cons, app_length. cbn [length]. pose proof (utf8_zlen c S) as W. pose proof (width_pos c). unfold zlen in W. lia.
Qed.
Lemma decode_at_ok A cp R post end_ : scalar cp -> bytes R -> end_ = zlen A + width cp + zlen R ->
  decode_at (A ++ utf8 cp ++ R ++ post) (zlen A) end_ = Ok (zlen A + width cp, cp).
Proof.
  intros S B ->. unfold decode_at. pose proof (zlen_nonneg A). pose proof (zlen_nonneg (utf8 cp ++ R ++ post)). rewrite zlen_app.
  replace ((0 <=? zlen A) && (zlen A <=? zlen A + zlen (utf8 cp ++ R ++ post))) with true by lia.
  rewrite skipn_zlen. pose proof (utf8_zlen cp S) as W. rewrite !zlen_app, W.
  replace (zlen A + (width cp + (zlen R + zlen post)) - (zlen A + width cp + zlen R)) with (zlen post) by lia.
  rewrite app_assoc. rewrite decode_ok.
  - rewrite (dec_complete _ R _ (utf8_accepted cp S)). cbn [lift option_map fst snd bind]. rewrite zlen_app. f_equal. f_equal. lia.
  - apply bytes_app. split; [apply scalar_bytes; exact S|exact B].
  - left. reflexivity.
Qed.
Lemma slice_ok A x R : slice (A ++ x ++ R) (zlen A) (zlen x) = Ok x.
Proof.
  unfold slice. rewrite !zlen_app. pose proof (zlen_nonneg A). pose proof (zlen_nonneg x). pose proof (zlen_nonneg R).
  replace ((0 <=? zlen A) && (0 <=? zlen x) && (zlen A + zlen x <=? zlen A + (zlen x + zlen R))) with true by lia.
  rewrite skipn_zlen, firstn_zlen. reflexivity.
Qed.
(** memcpy, memmove, memcpy *)
Lemma rotate A x y R t s n : t = zlen A -> s = zlen A + zlen x -> n = zlen y ->
  ('snippet <- slice (A ++ x ++ y ++ R) s n ;;
   'moved <- slice (A ++ x ++ y ++ R) t (s - t) ;;
   'b <- blit (A ++ x ++ y ++ R) (t + n) moved ;; blit b t snippet) = Ok (A ++ y ++ x ++ R).
Proof.
  intros -> -> ->. replace (A ++ x ++ y ++ R) with ((A ++ x) ++ y ++ R) at 1 by (rewrite <- app_assoc; reflexivity).
  rewrite <- zlen_app. rewrite slice_ok. cbn [bind]. rewrite zlen_app. replace (zlen A + zlen x - zlen A) with (zlen x) by lia. rewrite slice_ok. cbn [bind].
  pose proof (zlen_nonneg x). pose proof (zlen_nonneg y).
  destruct (split_firstn (x ++ y) (zlen y)) as (u & v & E & Lu); [rewrite zlen_app; lia|].
  assert (Lv : zlen v = zlen x). { apply (f_equal zlen) in E. rewrite !zlen_app in E. lia. }
  replace (A ++ x ++ y ++ R) with ((A ++ u) ++ v ++ R) by (rewrite (app_assoc x y R), E, <- !app_assoc; reflexivity).
  rewrite blit_app with (old := v) by (rewrite ?zlen_app; lia). cbn [bind]. rewrite <- app_assoc. rewrite blit_app by lia. reflexivity.
Qed.
Lemma sift_ok run : forall fuel A c R post, (length run < fuel)%nat -> Forall scalar run -> scalar c -> bytes R ->
  (exists x, In x run /\ ccc x > ccc c) ->
  sift fuel (A ++ encs run ++ utf8 c ++ R ++ post) (zlen A) (zlen A + total run) (zlen A + total run + width c)
    (zlen A + total run + width c + zlen R) (ccc c) = Ok (A ++ encs (ins c run) ++ R ++ post).
Proof.
  induction run as [|x run IH]; intros fuel A c R post F S Sc B (y & I & G); [destruct I|]. destruct fuel as [|fuel]; [lia|].
  inversion_clear S as [|? ? Sx Sr]. cbn [sift]. change (total (x :: run)) with (width x + total run). rewrite encs_cons.
  pose proof (encs_zlen run Sr) as Lr. pose proof (utf8_zlen c Sc) as Lc. pose proof (utf8_zlen x Sx) as Lx.
  replace (A ++ (utf8 x ++ encs run) ++ utf8 c ++ R ++ post) with (A ++ utf8 x ++ (encs run ++ utf8 c ++ R) ++ post) by (rewrite <- !app_assoc; reflexivity).
  rewrite decode_at_ok; [|exact Sx| |rewrite !zlen_app; lia].
  2:{ apply bytes_app. split; [apply encs_bytes; exact Sr|]. apply bytes_app. split; [apply scalar_bytes; exact Sc|exact B]. }
  cbn [bind]. cbn [ins]. destruct (ccc x >? ccc c) eqn:E.
  - replace (A ++ utf8 x ++ (encs run ++ utf8 c ++ R) ++ post) with (A ++ (utf8 x ++ encs run) ++ utf8 c ++ R ++ post) by (rewrite <- !app_assoc; reflexivity).
    rewrite (rotate A (utf8 x ++ encs run) (utf8 c) (R ++ post)); [|reflexivity|rewrite zlen_app; lia|lia].
    rewrite !encs_cons, <- !app_assoc. reflexivity.
  - replace (A ++ utf8 x ++ (encs run ++ utf8 c ++ R) ++ post) with ((A ++ utf8 x) ++ encs run ++ utf8 c ++ R ++ post) by (rewrite <- !app_assoc; reflexivity).
    replace (zlen A + width x) with (zlen (A ++ utf8 x)) by (rewrite zlen_app; lia).
    replace (zlen A + (width x + total run)) with (zlen (A ++ utf8 x) + total run) by (rewrite zlen_app; lia).
    rewrite IH; [|cbn in F; lia|exact Sr|exact Sc|exact B|].
    + rewrite encs_cons, <- !app_assoc. reflexivity.
    + destruct I as [->|I]; [lia|]. exists y. auto.
Qed.
Lemma sort_loop_ok rest : forall fuel A pre run post last, (length rest < fuel)%nat -> Forall scalar pre -> Forall scalar run -> Forall scalar rest ->
  0 <= last -> (forall x, In x run -> ccc x <= last) -> (last <> 0 -> exists x, In x run /\ ccc x = last) ->
  sort_loop fuel (A ++ encs pre ++ encs run ++ encs rest ++ post) (zlen A + total pre) (zlen A + total pre + total run)
    (zlen A + total pre + total run + total rest) last = Ok (A ++ encs (oflat (fold_left ostep rest (pre, run))) ++ post).
Proof.
  induction rest as [|c rest IH]; intros fuel A pre run post last F Sp Sr S L M X; (destruct fuel as [|fuel]; [lia|]); cbn [sort_loop].
  - change (total []) with 0. replace (_ =? _) with true by lia. unfold oflat. cbn [fold_left fst snd]. rewrite encs_app, <- app_assoc. reflexivity.
  - inversion_clear S as [|? ? Sc Ss]. change (total (c :: rest)) with (width c + total rest). pose proof (width_pos c). pose proof (total_nonneg rest).
    replace (_ =? _) with false by lia. pose proof (encs_zlen _ Sp) as Lp. pose proof (encs_zlen _ Sr) as Lr. pose proof (encs_zlen _ Ss) as Ls. pose proof (utf8_zlen c Sc) as Lc.
    rewrite encs_cons.
    replace (A ++ encs pre ++ encs run ++ (utf8 c ++ encs rest) ++ post) with ((A ++ encs pre ++ encs run) ++ utf8 c ++ encs rest ++ post) by (rewrite <- !app_assoc; reflexivity).
    replace (zlen A + total pre + total run) with (zlen (A ++ encs pre ++ encs run)) by (rewrite !zlen_app; lia).
    rewrite decode_at_ok; [|exact Sc|apply encs_bytes; exact Ss|lia]. cbn [bind].
    cbn [fold_left ostep]. pose proof (ccc_nonneg c). destruct (ccc c =? 0) eqn:E.
    + replace ((A ++ encs pre ++ encs run) ++ utf8 c ++ encs rest ++ post) with (A ++ encs (pre ++ run ++ [c]) ++ encs [] ++ encs rest ++ post)
        by (rewrite !encs_app, encs_cons, <- !app_assoc; reflexivity).
      assert (T : total (pre ++ run ++ [c]) = total pre + total run + width c).
      { rewrite !total_app. change (total [c]) with (width c + 0). lia. }
      specialize (IH fuel A (pre ++ run ++ [c]) [] post 0). change (total []) with 0 in IH. rewrite T in IH.
      rewrite !zlen_app, Lp, Lr. replace (zlen A + (total pre + total run) + width c) with (zlen A + (total pre + total run + width c)) by lia.
      replace (zlen A + (total pre + total run) + (width c + total rest)) with (zlen A + (total pre + total run + width c) + 0 + total rest) by lia.
      rewrite <- (Z.add_0_r (zlen A + (total pre + total run + width c))) at 2. apply IH; try assumption; try lia.
      * cbn in F; lia.
      * apply Forall_app. split; [exact Sp|]. apply Forall_app. split; [exact Sr|]. constructor; [exact Sc|constructor].
      * constructor.
      * intros x [].
    + destruct (ccc c >=? last) eqn:G.
      * rewrite ins_last by (intros x I; specialize (M x I); lia).
        replace ((A ++ encs pre ++ encs run) ++ utf8 c ++ encs rest ++ post) with (A ++ encs pre ++ encs (run ++ [c]) ++ encs rest ++ post)
          by (rewrite !encs_app, encs_cons, <- !app_assoc; reflexivity).
        assert (T : total (run ++ [c]) = total run + width c). { rewrite total_app. change (total [c]) with (width c + 0). lia. }
        specialize (IH fuel A pre (run ++ [c]) post (ccc c)). rewrite T in IH. rewrite !zlen_app, Lp, Lr.
        replace (zlen A + (total pre + total run) + width c) with (zlen A + total pre + (total run + width c)) by lia.
        replace (zlen A + (total pre + total run) + (width c + total rest)) with (zlen A + total pre + (total run + width c) + total rest) by lia.
        apply IH; try assumption; try lia.
        -- cbn in F; lia.
        -- apply Forall_app. split; [exact Sr|]. constructor; [exact Sc|constructor].
        -- intros x I. apply in_app_or in I as [I|[->|[]]]; [specialize (M x I); lia|lia].
        -- intros _. exists c. split; [apply in_or_app; right; left; reflexivity|reflexivity].
      * replace ((A ++ encs pre ++ encs run) ++ utf8 c ++ encs rest ++ post) with ((A ++ encs pre) ++ encs run ++ utf8 c ++ encs rest ++ post) by (rewrite <- !app_assoc; reflexivity).
        replace (zlen A + total pre) with (zlen (A ++ encs pre)) by (rewrite zlen_app; lia).
        replace (zlen (A ++ encs pre ++ encs run)) with (zlen (A ++ encs pre) + total run) by (rewrite !zlen_app; lia).
        replace (zlen (A ++ encs pre) + total run + (width c + total rest)) with (zlen (A ++ encs pre) + total run + width c + zlen (encs rest)) by lia.
        rewrite sift_ok; try assumption.
        -- cbn [bind]. specialize (IH fuel A pre (ins c run) post last). rewrite ins_total in IH. rewrite zlen_app, Lp, Ls.
           replace ((A ++ encs pre) ++ encs (ins c run) ++ encs rest ++ post) with (A ++ encs pre ++ encs (ins c run) ++ encs rest ++ post) by (rewrite <- app_assoc; reflexivity).
           replace (zlen A + total pre + total run + width c) with (zlen A + total pre + (width c + total run)) by lia.
           apply IH; try assumption.
           ++ cbn in F; lia.
           ++ apply ins_forall; assumption.
           ++ intros x I. apply ins_in in I as [->|I]; [lia|auto].
           ++ intros N. destruct (X N) as (x & I & Ex). exists x. split; [apply ins_in; right; exact I|exact Ex].
        -- pose proof (encs_length run Sr). rewrite !app_length. lia.
        -- apply encs_bytes. exact Ss.
        -- destruct (X ltac:(lia)) as (x & I & Ex). exists x. split; [exact I|lia].
Qed.
Lemma sort_ok A cps post : Forall scalar cps ->
  sort_combining_characters (A ++ encs cps ++ post) (zlen A) (zlen A + total cps) = Ok (A ++ encs (osort cps) ++ post).
Proof.
  intros S. unfold sort_combining_characters. pose proof (sort_loop_ok cps (Datatypes.S (length (A ++ encs cps ++ post))) A [] [] post 0) as H.
  change (total []) with 0 in H. rewrite !Z.add_0_r in H. apply H; auto; try lia.
  - pose proof (encs_length cps S). rewrite !app_length. lia.
  - intros x [].
Qed.

(** * Decomposition *)

(** What may be written for a codepoint *)
Definition variant (cp : Z) (r : list Z) : Prop := r = fd cp \/ (is_syllable cp = true /\ r = [cp]).
Lemma variant_scalar cp r : scalar cp -> variant cp r -> Forall scalar r.
Proof. intros S [->|[_ ->]]; [apply fd_scalar; exact S|constructor; [exact S|constructor]]. Qed.

Lemma decompose_cp pre free post cp : scalar cp ->
  exists free' o, decompose_fully recursion_depth cp (pre ++ free ++ post) (Some (zlen pre)) (Some (zlen pre + zlen free)) = Ok (pre ++ free' ++ post, o) /\
    zlen free' = zlen free /\
    match o with
    | Some n => exists r rest, variant cp r /\ free' = encs r ++ rest /\ n = zlen pre + total r /\ (total (fd cp) <= zlen free <-> r = fd cp)
    | None => total (fd cp) > zlen free
    end.
Proof.
  intros S. pose proof (fd_scalar cp S) as SF. destruct (is_syllable cp) eqn:Y.
  - rewrite decompose_syllable by exact Y. destruct (Z_le_gt_dec (total (fd cp)) (zlen free)) as [L|G].
    + destruct (puts_room pre free post _ SF L) as (free' & -> & E). cbn [bind]. exists (encs (fd cp) ++ free'), (Some (zlen pre + total (fd cp))).
      rewrite <- app_assoc. split; [reflexivity|]. split; [rewrite zlen_app, encs_zlen by exact SF; lia|]. exists (fd cp), free'. split; [left; reflexivity|]. intuition.
    + destruct (puts_no_room pre free post _ SF G) as (free1 & -> & E1). cbn [bind]. rewrite <- E1.
      assert (S1 : Forall scalar [cp]) by (constructor; [exact S|constructor]).
      destruct (Z_le_gt_dec (total [cp]) (zlen free1)) as [L|G1].
      * destruct (puts_room pre free1 post _ S1 L) as (free' & -> & E). exists (encs [cp] ++ free'), (Some (zlen pre + total [cp])).
        rewrite <- app_assoc. split; [reflexivity|]. split; [rewrite zlen_app, encs_zlen by exact S1; lia|]. exists [cp], free'. split; [right; auto|].
        split; [reflexivity|]. split; [reflexivity|]. split; [lia|]. intros <-. lia.
      * destruct (puts_no_room pre free1 post _ S1 G1) as (free' & -> & E). exists free', None. split; [reflexivity|]. split; [lia|]. lia.
  - rewrite decompose_other by exact Y. destruct (Z_le_gt_dec (total (fd cp)) (zlen free)) as [L|G].
    + destruct (puts_room pre free post _ SF L) as (free' & -> & E). exists (encs (fd cp) ++ free'), (Some (zlen pre + total (fd cp))).
      rewrite <- app_assoc. split; [reflexivity|]. split; [rewrite zlen_app, encs_zlen by exact SF; lia|]. exists (fd cp), free'. split; [left; reflexivity|]. intuition.
    + destruct (puts_no_room pre free post _ SF G) as (free' & -> & E). exists free', None. auto.
Qed.

Lemma decompose_loop_ok s cps ok : scanned s cps ok -> forall q e, input s q e -> forall fuel pre free post, (length s < fuel)%nat ->
  exists free' o, decompose_loop fuel (s ++ q) e (pre ++ free ++ post) (zlen pre) (zlen pre + zlen free) = Ok (pre ++ free' ++ post, o) /\
    zlen free' = zlen free /\
    match o with
    | inl n => ok = true /\ exists rs rest, Forall2 variant cps rs /\ free' = encs (concat rs) ++ rest /\ n = zlen pre + total (concat rs) /\
        (total (fds cps) <= zlen free <-> concat rs = fds cps)
    | inr err => (err = EILSEQ /\ ok = false) \/ (err = EOVERFLOW /\ total (fds cps) > zlen free)
    end.
Proof.
  induction 1 as [|c s N|bs cp s cps ok A H IH]; intros q e I fuel pre free post F; (destruct fuel as [|fuel]; [lia|]); cbn [decompose_loop].
  - exists free, (inl (zlen pre)). cbn [app]. split; [|split; [reflexivity|]].
    + destruct (head_nil _ _ I) as [->|[-> E]]; [reflexivity|]. rewrite E. reflexivity.
    + split; [reflexivity|]. exists [], free. split; [constructor|]. split; [reflexivity|]. change (total (concat [])) with 0. split; [lia|].
      change (total (fds [])) with 0. pose proof (zlen_nonneg free). split; [reflexivity|lia].
  - destruct (head_bad _ _ _ _ N I) as (-> & -> & Tc & ->). cbn [bind]. rewrite Tc. cbn [bind]. exists free, (inr EILSEQ). auto.
  - destruct (head_good _ _ _ _ _ A I) as (c & -> & -> & Tc & -> & I'). cbn [bind]. rewrite Tc. cbn [bind].
    destruct (decompose_cp pre free post cp (proj2 A)) as (free1 & o & -> & L1 & O). cbn [bind].
    pose proof (fd_scalar cp (proj2 A)) as Sf. rewrite fds_cons, total_app. pose proof (total_nonneg (fds cps)).
    destruct o as [n|]; [|exists free1, (inr EOVERFLOW); split; [reflexivity|]; split; [exact L1|]; right; split; [reflexivity|lia]].
    destruct O as (r & rest & V & -> & -> & R). pose proof (variant_scalar _ _ (proj2 A) V) as Sr. pose proof (encs_zlen r Sr) as Lr. rewrite zlen_app in L1.
    replace (pre ++ (encs r ++ rest) ++ post) with ((pre ++ encs r) ++ rest ++ post) by (rewrite <- !app_assoc; reflexivity).
    replace (zlen pre + total r) with (zlen (pre ++ encs r)) by (rewrite zlen_app; lia).
    replace (zlen pre + zlen free) with (zlen (pre ++ encs r) + zlen rest) by (rewrite zlen_app; lia).
    destruct (IH q e I' fuel (pre ++ encs r) rest post) as (free2 & o2 & -> & L2 & O2).
    { pose proof (pattern_length _ _ (proj1 A)). rewrite app_length in F. lia. }
    exists (encs r ++ free2), o2. rewrite <- !app_assoc. split; [reflexivity|]. rewrite zlen_app. split; [lia|].
    assert (VL : r <> fd cp -> total (fd cp) > zlen free) by (intros NE; destruct (Z_le_gt_dec (total (fd cp)) (zlen free)); [tauto|assumption]).
    destruct o2 as [n|err].
    + destruct O2 as (Ok' & rs & rest2 & FV & -> & -> & R2). split; [exact Ok'|]. exists (r :: rs), rest2. split; [constructor; assumption|].
      cbn [concat]. rewrite encs_app, <- app_assoc. split; [reflexivity|]. rewrite zlen_app, total_app. split; [lia|]. split.
      * intros L. assert (r = fd cp) by (apply R; lia). subst r. f_equal. apply R2. lia.
      * intros E. pose proof (f_equal total E) as ET. rewrite !total_app in ET.
        destruct (list_eq_dec Z.eq_dec r (fd cp)) as [->|NE].
        -- apply app_inv_head in E. pose proof (proj2 R2 E). lia.
        -- exfalso. destruct V as [V|[Y V]]; [congruence|]. subst r. apply is_syllable_ok in Y as (l & v & t & Y). rewrite (fd_syllable _ _ _ _ Y) in E.
           unfold jamo in E. cbn [app] in E. apply (f_equal (hd 0)) in E. cbn [hd] in E. unfold syllable in Y. lia.
    + destruct O2 as [[-> K]|[-> K]]; [left; auto|]. right. split; [reflexivity|].
      destruct (list_eq_dec Z.eq_dec r (fd cp)) as [->|NE]; [lia|]. specialize (VL NE). lia.
Qed.

(** The whole function *)
Lemma decompose_ok s cps ok q e pre free post : scanned s cps ok -> input s q e ->
  exists free' o, charstr_unicode_decompose (s ++ q) e (pre ++ free ++ post) (zlen pre) (zlen pre + zlen free) = Ok (pre ++ free' ++ post, o) /\
    zlen free' = zlen free /\
    match o with
    | inl n => ok = true /\ exists rs rest, Forall2 variant cps rs /\ free' = encs (osort (concat rs)) ++ 0 :: rest /\ n = zlen pre + total (concat rs) /\
        (total (fds cps) < zlen free <-> concat rs = fds cps)
    | inr err => (err = EILSEQ /\ ok = false) \/ (err = EOVERFLOW /\ total (fds cps) >= zlen free)
    end.
Proof.
  intros S I. unfold charstr_unicode_decompose.
  destruct (decompose_loop_ok s cps ok S q e I (Datatypes.S (length (s ++ q))) pre free post) as (free1 & o & -> & L & O); [rewrite app_length; lia|].
  cbn [bind]. destruct o as [n|err].
  - destruct O as (Ok' & rs & rest & V & -> & -> & R). assert (SR : Forall scalar (concat rs)).
    { pose proof (scanned_scalar _ _ _ S) as SC. clear - V SC. induction V as [|cp r cps rs V _ IH]; [constructor|]. inversion_clear SC. cbn. apply Forall_app.
      split; [eapply variant_scalar; eauto|auto]. }
    pose proof (encs_zlen _ SR) as LR. rewrite zlen_app in L. destruct rest as [|x rest].
    + replace (_ =? _) with true by (change (zlen (@nil Z)) with 0 in L; lia). eexists. exists (inr EOVERFLOW). split; [reflexivity|].
      change (zlen (@nil Z)) with 0 in L. rewrite zlen_app. change (zlen (@nil Z)) with 0. split; [lia|]. right. split; [reflexivity|].
      destruct (Z_lt_le_dec (total (fds cps)) (zlen free)) as [G|G]; [|lia]. exfalso. assert (E : concat rs = fds cps) by (apply R; lia). rewrite E in *. lia.
    + rewrite zlen_cons in L. pose proof (zlen_nonneg rest). replace (_ =? _) with false by lia.
      replace (pre ++ (encs (concat rs) ++ x :: rest) ++ post) with ((pre ++ encs (concat rs)) ++ x :: (rest ++ post)) by (rewrite <- !app_assoc; reflexivity).
      rewrite wr_app by (rewrite zlen_app; lia). cbn [bind].
      replace ((pre ++ encs (concat rs)) ++ 0 :: rest ++ post) with (pre ++ encs (concat rs) ++ (0 :: rest ++ post)) by (rewrite <- !app_assoc; reflexivity).
      rewrite sort_ok by exact SR. cbn [bind]. exists (encs (osort (concat rs)) ++ 0 :: rest), (inl (zlen pre + total (concat rs))).
      rewrite <- !app_assoc. split; [reflexivity|]. assert (SO : Forall scalar (osort (concat rs))) by (apply osort_forall; exact SR).
      rewrite zlen_app, zlen_cons, encs_zlen, osort_total by exact SO. split; [lia|]. split; [exact Ok'|]. exists rs, rest. split; [exact V|]. split; [reflexivity|]. split; [reflexivity|].
      split; [intros G; apply R; lia|]. intros E. rewrite E in *. lia.
  - exists free1, (inr err). split; [reflexivity|]. split; [exact L|]. destruct O as [O|[-> O]]; [left; exact O|]. right. split; [reflexivity|lia].
Qed.
