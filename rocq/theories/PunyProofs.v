(** The encoder of labels: what it writes is decoded to the label. *)
From Verif Require Import Base CMem CharstrModel CharstrSpec Utf8Model PunyModel PunySpec.
From Coq Require Import ZifyBool ZifyNat.

(** * adapt *)

Lemma pow2_S n : 2 ^ Z.of_nat (S n) = 2 * 2 ^ Z.of_nat n.
Proof. rewrite Nat2Z.inj_succ, Z.pow_succ_r by lia. reflexivity. Qed.
Lemma pow2_mono a b : (a <= b)%nat -> 2 ^ Z.of_nat a <= 2 ^ Z.of_nat b.
Proof. intros H. apply Z.pow_le_mono_r; lia. Qed.
Lemma big_log d n : 456 <= d -> d < 2 ^ Z.of_nat n -> (8 < n)%nat.
Proof.
  intros H1 H2. destruct (Nat.lt_ge_cases 8 n) as [|L]; [assumption|].
  apply pow2_mono in L. change (2 ^ Z.of_nat 8) with 256 in L. lia.
Qed.

Lemma scale_loop fuel : forall passes d k, 0 <= d -> d < 2 ^ Z.of_nat fuel -> (1 <= fuel)%nat -> d < 2 ^ Z.of_nat (S passes) ->
  adapt_loop fuel d k = Ok (scale passes d k).
Proof.
  induction fuel as [|fuel IH]; intros passes d k H0 H1 H2 H3; [lia|]. cbn [adapt_loop].
  change (Z.quot ((BASE - TMIN) * TMAX) 2) with 455.
  destruct (d >? 455) eqn:E.
  - pose proof (big_log d (S fuel) ltac:(lia) H1) as L1. pose proof (big_log d (S passes) ltac:(lia) H3) as L2.
    destruct passes as [|passes]; [lia|]. cbn [scale]. change ((36 - 1) * 26 / 2) with 455. rewrite E.
    change (BASE - TMIN) with 35. change BASE with 36. change (36 - 1) with 35.
    rewrite Z.quot_div_nonneg by lia. rewrite pow2_S in H1. rewrite pow2_S in H3.
    assert (d / 35 < d) by (apply Z.div_lt; lia). assert (2 * (d / 35) <= d) by (Z.to_euclidean_division_equations; lia).
    assert (0 <= d / 35) by (apply Z.div_pos; lia).
    apply IH; try lia.
  - destruct passes as [|passes]; cbn [scale]; [reflexivity|]. change ((36 - 1) * 26 / 2) with 455. rewrite E. reflexivity.
Qed.

Lemma s32_id x : 0 <= x < 2 ^ 31 -> s32 x = x.
Proof.
  intros H. unfold s32, sgn. rewrite Z.mod_small by lia. change (32 - 1) with 31. replace (x <? 2 ^ 31) with true by lia. reflexivity.
Qed.
Lemma u64_id x : 0 <= x < 2 ^ 64 -> u64 x = x.
Proof. intros H. apply Z.mod_small. exact H. Qed.

Lemma scale_pos passes : forall d k, 0 <= d -> 0 <= fst (scale passes d k).
Proof.
  induction passes as [|passes IH]; intros d k H; cbn [scale]; [exact H|].
  destruct (d >? _); [|exact H]. apply IH. apply Z.div_pos; lia.
Qed.

Lemma adapt_ok delta numpoints first : 0 <= delta < 2 ^ 31 -> 1 <= numpoints < 2 ^ 31 ->
  adapt delta numpoints first = Ok (adapt_bias delta numpoints first).
Proof.
  intros Hd Hn. unfold adapt, adapt_bias.
  rewrite !Z.quot_div_nonneg by (unfold DAMP; lia). change DAMP with 700.
  replace (numpoints =? 0) with false by lia.
  set (d := if first then delta / 700 else delta / 2).
  assert (0 <= d <= delta / 2) as Bd.
  { unfold d. destruct first; Z.to_euclidean_division_equations; lia. }
  assert (0 <= d / numpoints <= d) as Bq.
  { split; [apply Z.div_pos; lia|]. apply Z.div_le_upper_bound; [lia|]. nia. }
  clearbody d.
  assert (2 * (delta / 2) <= delta) by (Z.to_euclidean_division_equations; lia).
  rewrite (u64_id d) by lia. rewrite (u64_id (d + _)) by lia. rewrite s32_id by lia.
  remember (d + d / numpoints) as e eqn:Ee. assert (0 <= e < 2 ^ 31) as Be by lia. clear Ee Bq Bd.
  rewrite (scale_loop 32 (Z.to_nat (Z.log2 e)) e 0); try lia.
  - cbn [bind]. pose proof (scale_pos (Z.to_nat (Z.log2 e)) e 0 ltac:(lia)) as P.
    destruct (scale _ e 0) as [x k]. cbn [fst] in P. change SKEW with 38. replace (x + 38 =? 0) with false by lia.
    change ((BASE - TMIN + 1)) with 36. change (36 - 1 + 1) with 36. rewrite Z.quot_div_nonneg by lia. reflexivity.
  - rewrite Nat2Z.inj_succ, Z2Nat.id by apply Z.log2_nonneg.
    destruct (Z.eq_dec e 0) as [->|]; [vm_compute; reflexivity|]. apply Z.log2_spec. lia.
Qed.

(** * Digits *)

(** [a-z0-9] *)
Definition lower_alnum (c : Z) : Prop := 97 <= c <= 122 \/ 48 <= c <= 57.

Lemma digit_ok d : 0 <= d < 36 ->
  exists c, rd BASE36_DIGIT d = Ok c /\ digit_value c = Some d /\ lower_alnum c.
Proof.
  intros H.
  assert (forallb (fun k => let d := Z.of_nat k in
    match rd BASE36_DIGIT d with
    | Ok c => match digit_value c with Some e => e =? d | None => false end && (((97 <=? c) && (c <=? 122)) || ((48 <=? c) && (c <=? 57)))
    | _ => false
    end) (seq 0 36) = true) as A by (vm_compute; reflexivity).
  rewrite forallb_forall in A. specialize (A (Z.to_nat d)). rewrite in_seq in A. specialize (A ltac:(lia)).
  cbv zeta in A. rewrite Z2Nat.id in A by lia. destruct (rd BASE36_DIGIT d) as [c| | |]; try discriminate.
  exists c. split; [reflexivity|]. apply andb_true_iff in A as [A B].
  destruct (digit_value c) as [e|]; [|discriminate]. apply Z.eqb_eq in A. subst e. split; [reflexivity|].
  unfold lower_alnum. lia.
Qed.

Lemma emits_app a : forall out eo b, emits out eo (a ++ b) = (out <- emits out eo a ;; emits out eo b).
Proof.
  induction a as [|c a IH]; intros out eo b; [reflexivity|]. cbn [app emits].
  destruct (emit out eo c) as [o| | |]; cbn [bind]; auto.
Qed.

Lemma threshold_limit k bias : threshold k bias = limit k bias.
Proof. reflexivity. Qed.
Lemma limit_bounds k bias : 1 <= limit k bias <= 26.
Proof. unfold limit. destruct (k <=? bias) eqn:A; [lia|]. destruct (k >=? bias + 26) eqn:B; lia. Qed.

(** The integer [q], read from the state with weight [w]. *)
Lemma emit_delta_ok fuel : forall q k bias, 0 <= q < 2 ^ Z.of_nat fuel ->
  exists ds, (forall out eo, emit_delta (S fuel) q k bias out eo = emits out eo ds) /\ Forall lower_alnum ds /\ ds <> [] /\
  forall tail n i out oldi w, decode_digits (ds ++ tail) n i bias out oldi w k =
    let i := i + q * w in
    let len := zlen out + 1 in
    decode_digits tail (n + i / len) (i mod len + 1) (adapt_bias (i - oldi) len (oldi =? 0)) (insert_at (i mod len) (n + i / len) out)
      (i mod len + 1) 1 36.
Proof.
  induction fuel as [|fuel IH]; intros q k bias Hq.
  - change (2 ^ Z.of_nat 0) with 1 in Hq. assert (q = 0) as -> by lia.
    destruct (digit_ok 0 ltac:(lia)) as (c & R & V & L). exists [c].
    pose proof (limit_bounds k bias).
    split; [|split; [|split]].
    + intros out eo. cbn [emit_delta emits]. rewrite threshold_limit. replace (0 <? limit k bias) with true by lia.
      rewrite R. cbn [bind]. destruct (emit out eo c); reflexivity.
    + constructor; [exact L|constructor].
    + discriminate.
    + intros tail n i out oldi w. cbn [app decode_digits]. rewrite V. replace (0 <? limit k bias) with true by lia. reflexivity.
  - pose proof (limit_bounds k bias) as Ht. remember (limit k bias) as t eqn:Et.
    destruct (q <? t) eqn:E.
    + destruct (digit_ok q ltac:(lia)) as (c & R & V & L). exists [c]. split; [|split; [|split]].
      * intros out eo. cbn [emit_delta emits]. rewrite threshold_limit, <- Et, E, R. cbn [bind]. destruct (emit out eo c); reflexivity.
      * constructor; [exact L|constructor].
      * discriminate.
      * intros tail n i out oldi w. cbn [app decode_digits]. rewrite V, <- Et, E. reflexivity.
    + pose proof (Z.mod_pos_bound (q - t) (36 - t) ltac:(lia)) as Hm.
      destruct (digit_ok (t + (q - t) mod (36 - t)) ltac:(lia)) as (c & R & V & L).
      rewrite pow2_S in Hq.
      assert (0 <= (q - t) / (36 - t) < 2 ^ Z.of_nat fuel) as Hq'.
      { split; [apply Z.div_pos; lia|]. apply Z.div_lt_upper_bound; [lia|]. nia. }
      destruct (IH ((q - t) / (36 - t)) (k + 36) bias Hq') as (ds & E1 & E2 & E3 & E4).
      exists (c :: ds). split; [|split; [|split]].
      * intros out eo. remember (S fuel) as f. cbn [emit_delta emits]. rewrite threshold_limit, <- Et, E.
        change BASE with 36. rewrite Z.rem_mod_nonneg, Z.quot_div_nonneg by lia. rewrite R. cbn [bind].
        destruct (emit out eo c) as [o| | |]; cbn [bind]; [|reflexivity..]. apply E1.
      * constructor; assumption.
      * discriminate.
      * intros tail n i out oldi w. cbn [app decode_digits]. rewrite V, <- Et.
        replace (t + (q - t) mod (36 - t) <? t) with false by lia. cbv zeta. rewrite E4. cbv zeta.
        replace (i + (t + (q - t) mod (36 - t)) * w + (q - t) / (36 - t) * (w * (36 - t))) with (i + q * w); [reflexivity|].
        pose proof (Z.div_mod (q - t) (36 - t) ltac:(lia)) as D. nia.
Qed.

(** * The second pass *)

Definition at_dot (p : list Z) (end_ : Z) : res bool :=
  if at_end p (Some end_) then Ok true else c <- cur p ;; Ok (c =? 46).
(** The codepoints from [p] to the next dot or the end, which is at [p']. *)
Inductive reads (end_ : Z) : list Z -> list Z -> list Z -> Prop :=
| R_end p : at_dot p end_ = Ok true -> reads end_ p [] p
| R_cons p c p1 l p' : at_dot p end_ = Ok false -> charstr_decode_utf8_codepoint (Some p) (Some end_) = Ok (Some (p1, c)) ->
    (length p1 < length p)%nat -> reads end_ p1 l p' -> reads end_ p (c :: l) p'.

(** Letters are written in lower case. *)
Notation lc := ascii_lower.
Definition below (m : Z) (l : list Z) : list Z := map lc (filter (fun c => c <? m) l).

Lemma lc_big c : 128 <= c -> lc c = c.
Proof. intros H. unfold ascii_lower. replace ((65 <=? c) && (c <=? 90)) with false by lia. reflexivity. Qed.

Lemma insert_app A B m : insert_at (zlen A) m (A ++ B) = (A ++ [m]) ++ B.
Proof.
  unfold insert_at. rewrite zlen_to_nat, firstn_app, Nat.sub_diag, firstn_all, firstn_O, app_nil_r.
  rewrite skipn_app, Nat.sub_diag, skipn_all. cbn [skipn app]. rewrite <- app_assoc. reflexivity.
Qed.
Lemma zlen_below m l : zlen (below m l) <= zlen l.
Proof.
  unfold below, zlen. rewrite map_length. induction l as [|c l IH]; cbn [filter]; [lia|].
  destruct (c <? m); cbn [length]; lia.
Qed.
Lemma below_cons m c l : below m (c :: l) = if c <? m then lc c :: below m l else below m l.
Proof. unfold below. cbn [filter]. destruct (c <? m); reflexivity. Qed.

Lemma scan_ok end_ p s p' : reads end_ p s p' -> forall fuel A m delta bias n i handled basic,
  (length p < fuel)%nat -> 128 <= m <= 0x10FFFF -> 128 <= n -> 0 <= i -> zlen A + zlen s <= 1000 ->
  handled = zlen A + zlen (below m s) ->
  0 <= delta -> delta + (n * (handled + 1) + i) = m * (handled + 1) + zlen A ->
  (i = 0 <-> handled = basic) -> basic <= handled ->
  exists ds delta2 bias2 n2 i2 handled2,
    (forall out eo, pass2_scan fuel p end_ m delta bias handled basic out eo =
       (out <- emits out eo ds ;; Ok (delta2, bias2, handled2, out))) /\
    Forall lower_alnum ds /\ (In m s -> ds <> []) /\
    128 <= n2 /\ 0 <= i2 /\ handled2 = zlen (A ++ below (m + 1) s) /\
    0 <= delta2 /\ delta2 + (n2 * (handled2 + 1) + i2) = m * (handled2 + 1) + handled2 /\
    (i2 = 0 <-> handled2 = basic) /\ basic <= handled2 /\
    forall tail, decode_digits (ds ++ tail) n i bias (A ++ below m s) i 1 36 =
      decode_digits tail n2 i2 bias2 (A ++ below (m + 1) s) i2 1 36.
Proof.
  induction 1 as [p D|p c p1 l p' D C L R IH]; intros fuel A m delta bias n i handled basic Hf Hm Hn Hi HN Hh Hd HI Hb1 Hb2.
  - destruct fuel as [|fuel]; [lia|]. change (below m []) with (@nil Z) in *. change (below (m + 1) []) with (@nil Z). change (zlen (@nil Z)) with 0 in *.
    exists [], delta, bias, n, i, handled. split; [|repeat apply conj].
    + intros out eo. cbn [pass2_scan]. fold (at_dot p end_). rewrite D. reflexivity.
    + constructor.
    + intros [].
    + exact Hn.
    + exact Hi.
    + rewrite app_nil_r. lia.
    + exact Hd.
    + lia.
    + apply Hb1.
    + apply Hb1.
    + exact Hb2.
    + intros tail. reflexivity.
  - destruct fuel as [|fuel]; [lia|]. rewrite zlen_cons in HN. pose proof (zlen_nonneg A) as PA. pose proof (zlen_nonneg l) as Pl.
    pose proof (zlen_nonneg (below m l)) as PB. pose proof (zlen_below m l) as PB2.
    assert (forall out eo, pass2_scan (S fuel) p end_ m delta bias handled basic out eo =
      if negb (c =? m) then delta <- (if c <? m then incr delta else Ok delta) ;; pass2_scan fuel p1 end_ m delta bias handled basic out eo
      else out <- emit_delta 32 delta BASE bias out eo ;; bias <- adapt delta (handled + 1) (handled =? basic) ;;
           pass2_scan fuel p1 end_ m 0 bias (handled + 1) basic out eo) as Step.
    { intros out eo. cbn [pass2_scan]. fold (at_dot p end_). rewrite D. cbn [bind]. rewrite C. reflexivity. }
    rewrite below_cons in Hh. rewrite (below_cons m).
    rewrite (below_cons (m + 1)).
    destruct (Z.eqb_spec c m) as [->|Ne].
    + replace (m <? m) with false in * by lia. replace (m <? m + 1) with true by lia. rewrite (lc_big m) by lia.
      assert (0 <= handled <= 1000) as Bh by lia.
      assert (delta < 2 ^ 31) as Bd.
      { assert (m * (handled + 1) <= 0x10FFFF * 1001) by nia. assert (0 <= n * (handled + 1)) by nia. lia. }
      destruct (emit_delta_ok 31 delta 36 bias ltac:(change (Z.of_nat 31) with 31; lia)) as (ds1 & E1 & E2 & E3 & E4).
      destruct (IH fuel (A ++ [m]) m 0 (adapt_bias delta (handled + 1) (i =? 0)) m (zlen A + 1) (handled + 1) basic)
        as (ds2 & delta2 & bias2 & n2 & i2 & handled2 & F1 & F2 & F3 & F4 & F5 & F6 & F7 & F8 & F9 & F10 & F11);
        try (rewrite ?zlen_app; change (zlen [m]) with 1; lia).
      exists (ds1 ++ ds2), delta2, bias2, n2, i2, handled2. split; [|split; [|split; [|split; [|split; [|split; [|split; [|split; [|split; [|split]]]]]]]]].
      * intros out eo. rewrite Step. cbn [negb]. change BASE with 36. rewrite E1, emits_app.
        destruct (emits out eo ds1) as [o| | |]; cbn [bind]; [|reflexivity..].
        rewrite adapt_ok by lia. cbn [bind].
        replace (handled =? basic) with (i =? 0) by lia. apply F1.
      * apply Forall_app. split; assumption.
      * intros _ K. apply app_eq_nil in K. destruct K as [K _]. exact (E3 K).
      * exact F4.
      * exact F5.
      * rewrite <- app_assoc in F6. exact F6.
      * exact F7.
      * exact F8.
      * exact F9.
      * exact F10.
      * intros tail. rewrite <- app_assoc, E4. cbv zeta.
        rewrite zlen_app. rewrite <- Hh.
        assert (i + delta * 1 = (m - n) * (handled + 1) + zlen A) as -> by nia.
        rewrite (Z.add_comm ((m - n) * (handled + 1))).
        rewrite Z.div_add by lia. rewrite Z.mod_add by lia.
        rewrite Z.div_small, Z.mod_small by lia. replace (n + (0 + (m - n))) with m by lia.
        replace (zlen A + (m - n) * (handled + 1) - i) with delta by nia.
        rewrite insert_app. rewrite F11. rewrite <- app_assoc. reflexivity.
    + destruct (c <? m) eqn:Lt.
      * replace (c <? m + 1) with true by lia. rewrite zlen_cons in Hh.
        assert (0 <= handled <= 1000) as Bh by lia.
        assert (delta < 2 ^ 31 - 1) as Bd.
        { assert (m * (handled + 1) <= 0x10FFFF * 1001) by nia. assert (0 <= n * (handled + 1)) by nia. lia. }
        destruct (IH fuel (A ++ [lc c]) m (delta + 1) bias n i handled basic)
          as (ds2 & delta2 & bias2 & n2 & i2 & handled2 & F1 & F2 & F3 & F4 & F5 & F6 & F7 & F8 & F9 & F10 & F11);
          try (rewrite ?zlen_app; change (zlen [lc c]) with 1; lia).
        exists ds2, delta2, bias2, n2, i2, handled2. rewrite <- app_assoc in F6. cbn [app] in F6.
        split; [|split; [|split; [|split; [|split; [|split; [|split; [|split; [|split; [|split]]]]]]]]]; try assumption.
        -- intros out eo. rewrite Step. cbn [negb]. unfold incr, INT_MAX. replace (delta =? 2 ^ 31 - 1) with false by lia. cbn [bind]. apply F1.
        -- intros [K|K]; [congruence|exact (F3 K)].
        -- intros tail. specialize (F11 tail). rewrite <- !app_assoc in F11. exact F11.
      * replace (c <? m + 1) with false by lia.
        destruct (IH fuel A m delta bias n i handled basic)
          as (ds2 & delta2 & bias2 & n2 & i2 & handled2 & F1 & F2 & F3 & F4 & F5 & F6 & F7 & F8 & F9 & F10 & F11); try lia.
        exists ds2, delta2, bias2, n2, i2, handled2.
        split; [|split; [|split; [|split; [|split; [|split; [|split; [|split; [|split; [|split]]]]]]]]]; try assumption.
        -- intros out eo. rewrite Step. cbn [negb bind]. apply F1.
        -- intros [K|K]; [congruence|exact (F3 K)].
Qed.

(** [ns] are the values of [s] from [m] on in ascending order. *)
Fixpoint ascending (m : Z) (ns : list Z) : Prop :=
  match ns with [] => True | x :: ns => m <= x /\ ascending (x + 1) ns end.

Lemma ascending_ge ns : forall m, ascending m ns -> forall x, In x ns -> m <= x.
Proof. induction ns as [|y ns IH]; intros m H x I; [destruct I|]. destruct H as [H1 H2], I as [->|I]; [exact H1|]. specialize (IH _ H2 _ I). lia. Qed.

Lemma below_same a b s : a <= b -> (forall c, In c s -> c < a \/ b <= c) -> below b s = below a s.
Proof.
  intros H. unfold below. induction s as [|c s IH]; intros F; [reflexivity|]. cbn [filter].
  destruct (F c (or_introl eq_refl)) as [K|K].
  - replace (c <? b) with true by lia. replace (c <? a) with true by lia. cbn [map]. rewrite IH by (intros; apply F; right; assumption). reflexivity.
  - replace (c <? b) with false by lia. replace (c <? a) with false by lia. apply IH. intros; apply F; right; assumption.
Qed.
Lemma below_all m s : (forall c, In c s -> c < m) -> below m s = map lc s.
Proof.
  unfold below. induction s as [|c s IH]; intros F; [reflexivity|]. cbn [filter].
  pose proof (F c (or_introl eq_refl)). replace (c <? m) with true by lia. cbn [map]. rewrite IH by (intros; apply F; right; assumption). reflexivity.
Qed.

Lemma mul_bound x h : 0 <= x <= 0x10FFFF -> 0 <= h <= 1000 -> x * (h + 1) <= 0x10FFFF * 1001.
Proof. intros. apply Z.mul_le_mono_nonneg; lia. Qed.
Lemma mul_pos n h : 0 <= n -> 0 <= h -> 0 <= n * (h + 1).
Proof. intros. apply Z.mul_nonneg_nonneg; lia. Qed.

Lemma loop_ok end_ p s p' : reads end_ p s p' -> zlen s <= 1000 -> forall ns m delta bias n i handled basic,
  128 <= m -> ascending m ns -> (forall c, In c s -> m <= c -> In c ns) -> (forall c, In c ns -> In c s /\ c <= 0x10FFFF) ->
  128 <= n -> 0 <= i -> handled = zlen (below m s) ->
  0 <= delta -> delta + (n * (handled + 1) + i) = m * (handled + 1) ->
  (i = 0 <-> handled = basic) -> basic <= handled ->
  exists ds n2 i2 bias2,
    (forall out eo, pass2_loop ns p end_ m delta bias handled basic out eo = emits out eo ds) /\
    Forall lower_alnum ds /\ (ns <> [] -> ds <> []) /\
    forall tail, decode_digits (ds ++ tail) n i bias (below m s) i 1 36 =
      decode_digits tail n2 i2 bias2 (map lc s) i2 1 36.
Proof.
  intros R HN. induction ns as [|x ns IH]; intros m delta bias n i handled basic Hm Ha Hs Hr Hn Hi Hh Hd HI Hb1 Hb2.
  - exists [], n, i, bias. split; [|split; [|split]].
    + intros out eo. reflexivity.
    + constructor.
    + congruence.
    + intros tail. rewrite below_all; [reflexivity|]. intros c I. destruct (Z.lt_ge_cases c m) as [|K]; [assumption|]. destruct (Hs c I K).
  - destruct Ha as [Ha1 Ha2]. destruct (Hr x (or_introl eq_refl)) as [Hx1 Hx2].
    assert (below x s = below m s) as Ex.
    { apply below_same; [exact Ha1|]. intros c I. destruct (Z.lt_ge_cases c m) as [|K]; [auto|]. right.
      destruct (Hs c I K) as [->|J]; [lia|]. pose proof (ascending_ge _ _ Ha2 _ J). lia. }
    pose proof (zlen_below m s) as PB. pose proof (zlen_nonneg (below m s)) as PB0.
    assert (0 <= handled <= 1000) as Bh by lia.
    assert (delta + (x - m) * (handled + 1) < 2 ^ 31) as Bd.
    { pose proof (mul_bound x handled ltac:(lia) ltac:(lia)). pose proof (mul_pos n handled ltac:(lia) ltac:(lia)). lia. }
    assert (0 <= (x - m) * (handled + 1)) by (apply mul_pos; lia).
    assert (s32 (u64 (u64 delta + u64 (u64 (x - m) * (handled + 1)))) = delta + (x - m) * (handled + 1)) as Ed.
    { rewrite (u64_id delta) by lia. rewrite (u64_id (x - m)) by lia. rewrite (u64_id (_ * _)) by lia.
      rewrite (u64_id (_ + _)) by lia. apply s32_id. lia. }
    destruct (scan_ok _ _ _ _ R (S (length p)) [] x (delta + (x - m) * (handled + 1)) bias n i handled basic)
      as (ds1 & delta2 & bias2 & n2 & i2 & handled2 & F1 & F2 & F3 & F4 & F5 & F6 & F7 & F8 & F9 & F10 & F11);
      try (change (zlen (@nil Z)) with 0; rewrite ?Ex; lia).
    cbn [app] in F6, F11.
    pose proof (zlen_below (x + 1) s) as PC. pose proof (zlen_nonneg (below (x + 1) s)) as PC0.
    assert (delta2 < 2 ^ 31 - 1) as Bd2.
    { pose proof (mul_bound x handled2 ltac:(lia) ltac:(lia)). pose proof (mul_pos n2 handled2 ltac:(lia) ltac:(lia)). lia. }
    destruct (IH (x + 1) (delta2 + 1) bias2 n2 i2 handled2 basic) as (ds2 & n3 & i3 & bias3 & G1 & G2 & G3 & G4);
      try assumption; try lia.
    { intros c I L. destruct (Hs c I ltac:(lia)) as [->|J]; [lia|exact J]. }
    { intros c I. apply Hr. right. exact I. }
    exists (ds1 ++ ds2), n3, i3, bias3. split; [|split; [|split]].
    + intros out eo. cbn [pass2_loop]. rewrite Ed, F1, emits_app.
      destruct (emits out eo ds1) as [o| | |]; cbn [bind]; [|reflexivity..].
      unfold incr, INT_MAX. replace (delta2 =? 2 ^ 31 - 1) with false by lia. cbn [bind]. apply G1.
    + apply Forall_app. split; assumption.
    + intros _ K. apply app_eq_nil in K. destruct K as [K _]. exact (F3 Hx1 K).
    + intros tail. rewrite <- app_assoc, <- Ex, F11. apply G4.
Qed.
