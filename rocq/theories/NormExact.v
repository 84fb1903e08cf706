(** What charstr_unicode_decompose does, exactly, for every size of the buffer *)
From Verif Require Import Base CMem CharstrModel CharstrSpec CharstrProofs Utf8Model Utf8Spec Utf8Proofs UcdData NormModel NormSpec NormTables NormFacts NormOrder NormBytes NormDecompose.
From Coq Require Import ZifyBool ZifyNat.

#[local] Opaque decomposition_data ccc_data exclusion_data nfc_qc_data nfd_qc_data.

(** What is written for [cp] when there are [room] bytes *)
Definition fit_cp (cp room : Z) : option (list Z) :=
  if total (fd cp) <=? room then Some (fd cp)
  else if is_syllable cp && (total [cp] <=? room) then Some [cp]
  else None.
Fixpoint fit (cps : list Z) (room : Z) : option (list (list Z)) :=
  match cps with
  | [] => Some []
  | cp :: cps =>
      match fit_cp cp room with
      | None => None
      | Some r => match fit cps (room - total r) with None => None | Some rs => Some (r :: rs) end
      end
  end.
Lemma fit_cp_variant cp room r : fit_cp cp room = Some r -> variant cp r.
Proof.
  unfold fit_cp. destruct (total (fd cp) <=? room); [intros E; injection E as <-; left; reflexivity|].
  destruct (is_syllable cp) eqn:Y; [|discriminate]. cbn [andb]. destruct (total [cp] <=? room); [|discriminate]. intros E; injection E as <-. right. auto.
Qed.
Lemma fit_variant cps : forall room rs, fit cps room = Some rs -> Forall2 variant cps rs.
Proof.
  induction cps as [|cp cps IH]; intros room rs E; cbn [fit] in E; [injection E as <-; constructor|].
  destruct (fit_cp cp room) as [r|] eqn:F; [|discriminate]. destruct (fit cps (room - total r)) as [rs'|] eqn:G; [|discriminate]. injection E as <-.
  constructor; [exact (fit_cp_variant _ _ _ F)|exact (IH _ _ G)].
Qed.

Lemma decompose_cp_exact pre free post cp : scalar cp ->
  exists free', decompose_fully recursion_depth cp (pre ++ free ++ post) (Some (zlen pre)) (Some (zlen pre + zlen free)) =
    Ok (pre ++ free' ++ post, match fit_cp cp (zlen free) with Some r => Some (zlen pre + total r) | None => None end) /\
    zlen free' = zlen free /\
    match fit_cp cp (zlen free) with Some r => exists rest, free' = encs r ++ rest | None => True end.
Proof.
  intros S. pose proof (fd_scalar cp S) as SF. assert (S1 : Forall scalar [cp]) by (constructor; [exact S|constructor]).
  unfold fit_cp. destruct (total (fd cp) <=? zlen free) eqn:L.
  - destruct (puts_room pre free post _ SF ltac:(lia)) as (free' & P & E). exists (encs (fd cp) ++ free').
    split; [|split; [rewrite zlen_app, encs_zlen by exact SF; lia|eauto]]. rewrite <- app_assoc.
    destruct (is_syllable cp) eqn:Y; [rewrite decompose_syllable by exact Y; rewrite P; reflexivity|rewrite decompose_other by exact Y; exact P].
  - destruct (puts_no_room pre free post _ SF ltac:(lia)) as (free1 & P & E). destruct (is_syllable cp) eqn:Y; cbn [andb].
    + rewrite decompose_syllable by exact Y. rewrite P. cbn [bind]. rewrite <- E. destruct (total [cp] <=? zlen free1) eqn:L1.
      * destruct (puts_room pre free1 post _ S1 ltac:(lia)) as (free' & P1 & E1). exists (encs [cp] ++ free').
        split; [rewrite <- app_assoc; exact P1|split; [rewrite zlen_app, encs_zlen by exact S1; lia|eauto]].
      * destruct (puts_no_room pre free1 post _ S1 ltac:(lia)) as (free' & P1 & E1). exists free'. split; [exact P1|]. split; [lia|exact I].
    + rewrite decompose_other by exact Y. exists free1. split; [exact P|]. split; [lia|exact I].
Qed.

Lemma decompose_loop_exact s cps ok : scanned s cps ok -> ok = true -> forall q e, input s q e -> forall fuel pre free post, (length s < fuel)%nat ->
  exists free', decompose_loop fuel (s ++ q) e (pre ++ free ++ post) (zlen pre) (zlen pre + zlen free) =
    Ok (pre ++ free' ++ post, match fit cps (zlen free) with Some rs => inl (zlen pre + total (concat rs)) | None => inr EOVERFLOW end) /\
    zlen free' = zlen free /\
    match fit cps (zlen free) with Some rs => exists rest, free' = encs (concat rs) ++ rest | None => True end.
Proof.
  induction 1 as [|c s N|bs cp s cps ok A H IH]; intros Eok q e I fuel pre free post F; (destruct fuel as [|fuel]; [lia|]); cbn [decompose_loop fit].
  - exists free. cbn [app concat]. change (total []) with 0. rewrite Z.add_0_r. split; [|split; [reflexivity|exists free; reflexivity]].
    destruct (head_nil _ _ I) as [->|[-> E]]; [reflexivity|]. rewrite E. reflexivity.
  - discriminate.
  - destruct (head_good _ _ _ _ _ A I) as (c & -> & -> & Tc & -> & I'). cbn [bind]. rewrite Tc. cbn [bind].
    destruct (decompose_cp_exact pre free post cp (proj2 A)) as (free1 & -> & L1 & O). cbn [bind].
    destruct (fit_cp cp (zlen free)) as [r|] eqn:Fr; [|exists free1; auto].
    destruct O as (rest & ->). pose proof (variant_scalar _ _ (proj2 A) (fit_cp_variant _ _ _ Fr)) as Sr. pose proof (encs_zlen r Sr) as Lr. rewrite zlen_app in L1.
    replace (pre ++ (encs r ++ rest) ++ post) with ((pre ++ encs r) ++ rest ++ post) by (rewrite <- !app_assoc; reflexivity).
    replace (zlen pre + total r) with (zlen (pre ++ encs r)) by (rewrite zlen_app; lia).
    replace (zlen pre + zlen free) with (zlen (pre ++ encs r) + zlen rest) by (rewrite zlen_app; lia).
    destruct (IH Eok q e I' fuel (pre ++ encs r) rest post) as (free2 & -> & L2 & O2).
    { pose proof (pattern_length _ _ (proj1 A)). rewrite app_length in F. lia. }
    replace (zlen free - total r) with (zlen rest) by lia. exists (encs r ++ free2). rewrite <- !app_assoc.
    split; [|split; [rewrite (zlen_app (encs r) free2); lia|]].
    + destruct (fit cps (zlen rest)) as [rs|]; [|reflexivity]. cbn [concat]. rewrite zlen_app, total_app. do 3 f_equal. lia.
    + destruct (fit cps (zlen rest)) as [rs|]; [|exact Logic.I]. destruct O2 as (rest2 & ->). exists rest2. cbn [concat]. rewrite encs_app, <- app_assoc. reflexivity.
Qed.

(** The codepoints that are written, before sorting, if [room] bytes are enough for them and a NUL *)
Definition fitting (cps : list Z) (room : Z) : option (list Z) :=
  match fit cps room with
  | Some rs => if total (concat rs) =? room then None else Some (concat rs)
  | None => None
  end.
Lemma fitting_variant cps room l : fitting cps room = Some l -> exists rs, Forall2 variant cps rs /\ l = concat rs.
Proof.
  unfold fitting. destruct (fit cps room) as [rs|] eqn:F; [|discriminate]. destruct (total (concat rs) =? room); [discriminate|]. intros E. injection E as <-.
  exists rs. split; [exact (fit_variant _ _ _ F)|reflexivity].
Qed.
Lemma decompose_exact s cps q e pre free post : scanned s cps true -> input s q e ->
  exists free', charstr_unicode_decompose (s ++ q) e (pre ++ free ++ post) (zlen pre) (zlen pre + zlen free) =
    Ok (pre ++ free' ++ post, match fitting cps (zlen free) with Some l => inl (zlen pre + total l) | None => inr EOVERFLOW end) /\
    zlen free' = zlen free /\
    match fitting cps (zlen free) with Some l => exists rest, free' = encs (osort l) ++ 0 :: rest | None => True end.
Proof.
  intros S I. unfold charstr_unicode_decompose, fitting.
  destruct (decompose_loop_exact s cps true S eq_refl q e I (Datatypes.S (length (s ++ q))) pre free post) as (free1 & -> & L & O); [rewrite app_length; lia|].
  cbn [bind]. destruct (fit cps (zlen free)) as [rs|] eqn:Fr; [|exists free1; auto].
  destruct O as (rest & ->). apply fit_variant in Fr as V.
  assert (SR : Forall scalar (concat rs)).
  { pose proof (scanned_scalar _ _ _ S) as SC. clear - V SC. induction V as [|cp r cps rs V _ IH]; [constructor|]. inversion_clear SC. cbn. apply Forall_app.
    split; [eapply variant_scalar; eauto|auto]. }
  pose proof (encs_zlen _ SR) as LR. rewrite zlen_app in L.
  replace (zlen pre + total (concat rs) =? zlen pre + zlen free) with (total (concat rs) =? zlen free) by lia.
  destruct (total (concat rs) =? zlen free) eqn:Q.
  - eexists. split; [reflexivity|]. split; [rewrite zlen_app; exact L|exact Logic.I].
  - destruct rest as [|x rest]; [change (zlen (@nil Z)) with 0 in L; lia|]. rewrite zlen_cons in L.
    replace (pre ++ (encs (concat rs) ++ x :: rest) ++ post) with ((pre ++ encs (concat rs)) ++ x :: (rest ++ post)) by (rewrite <- !app_assoc; reflexivity).
    rewrite wr_app by (rewrite zlen_app; lia). cbn [bind].
    replace ((pre ++ encs (concat rs)) ++ 0 :: rest ++ post) with (pre ++ encs (concat rs) ++ (0 :: rest ++ post)) by (rewrite <- !app_assoc; reflexivity).
    rewrite sort_ok by exact SR. cbn [bind]. exists (encs (osort (concat rs)) ++ 0 :: rest). rewrite <- !app_assoc. split; [reflexivity|].
    assert (SO : Forall scalar (osort (concat rs))) by (apply osort_forall; exact SR).
    rewrite zlen_app, zlen_cons, encs_zlen, osort_total by exact SO. split; [lia|]. exists rest. reflexivity.
Qed.
