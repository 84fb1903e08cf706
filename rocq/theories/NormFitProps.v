(** C56 and C57, exactly: what charstr_unicode_decompose does for every size of the buffer. *)
From Verif Require Import Base CMem CharstrModel CharstrSpec Utf8Model Utf8Spec UcdData NormModel NormSpec NormFitSpec.
From Verif Require Import NormFacts NormOrder NormBytes NormDecompose NormMain NormExact NormFit.

#[local] Ltac scalars := repeat (constructor; [unfold scalar; lia|]); constructor.

(** If what is written for the codepoints fits with a NUL after it, it is written in canonical
    order, and the position of the NUL is returned. *)
Theorem C56_exact : forall s cps q e pre free post w t, input s q e -> encodes s cps ->
  written cps (zlen free) w -> zlen (encoding w) < zlen free -> exchanges w t -> ordered t ->
  exists rest, charstr_unicode_decompose (s ++ q) e (pre ++ free ++ post) (zlen pre) (zlen pre + zlen free) =
      Ok (pre ++ encoding t ++ 0 :: rest ++ post, inl (zlen pre + zlen (encoding t))) /\
    zlen (encoding t) + 1 + zlen rest = zlen free.
Proof. intros s cps q e pre free post w t I E. exact (proj1 (decompose_written s cps q e pre free post I E) w t). Qed.
Print Assumptions C56_exact.

(** There is at most one [w]. *)
Theorem C56_exact_unique : forall s cps room w w', encodes s cps -> written cps room w -> written cps room w' -> w = w'.
Proof. intros s cps room w w' E. exact (written_unique cps room w w' (encodes_scalar s cps E)). Qed.
Print Assumptions C56_exact_unique.

(** Otherwise the result is NULL with EOVERFLOW. *)
Theorem C57_exact : forall s cps q e pre free post, input s q e -> encodes s cps ->
  (~ exists w, written cps (zlen free) w /\ zlen (encoding w) < zlen free) ->
  exists free', charstr_unicode_decompose (s ++ q) e (pre ++ free ++ post) (zlen pre) (zlen pre + zlen free) =
      Ok (pre ++ free' ++ post, inr EOVERFLOW) /\ zlen free' = zlen free.
Proof. intros s cps q e pre free post I E. exact (proj2 (decompose_written s cps q e pre free post I E)). Qed.
Print Assumptions C57_exact.

(** Bad UTF-8: the error is EILSEQ exactly if what is before the bad byte fits. *)
Theorem C57_invalid_exact : forall s cps q e pre free post, input s q e -> breaks s cps ->
  exists free' err, charstr_unicode_decompose (s ++ q) e (pre ++ free ++ post) (zlen pre) (zlen pre + zlen free) =
      Ok (pre ++ free' ++ post, inr err) /\ zlen free' = zlen free /\
    ((err = EILSEQ /\ exists w, written cps (zlen free) w) \/ (err = EOVERFLOW /\ ~ exists w, written cps (zlen free) w)).
Proof.
  intros s cps q e pre free post I B. destruct (decompose_broken s cps q e pre free post I B) as (free' & E & L). pose proof (breaks_scalar _ _ B) as S.
  exists free'. eexists. split; [exact E|]. split; [exact L|]. destruct (fit cps (zlen free)) as [rs|] eqn:F; [left|right]; (split; [reflexivity|]).
  - exists (concat rs). apply (fit_written cps S). eauto.
  - intros (w & W). apply (fit_written cps S) in W as (rs & W & _). congruence.
Qed.
Print Assumptions C57_invalid_exact.

(** Two syllables in a buffer of 10 bytes: the first one is decomposed, there are only four
    bytes for the second one. *)
Example C56_exact_example :
  written [0xAC00; 0xAC01] 10 [0x1100; 0x1161; 0xAC01] /\ zlen (encoding [0x1100; 0x1161; 0xAC01]) < 10 /\
  charstr_unicode_decompose (encoding [0xAC00; 0xAC01] ++ [0]) None (repeat 9 10) 0 10 =
    Ok (encoding [0x1100; 0x1161; 0xAC01] ++ [0], inl 9).
Proof.
  split; [|split; [reflexivity|vm_compute; reflexivity]].
  apply (fit_written [0xAC00; 0xAC01]); [scalars|]. eexists. split; [vm_compute; reflexivity|reflexivity].
Qed.
(** With nine bytes there is no room for the NUL, with eight not for the second syllable. *)
Example C57_exact_example :
  (~ exists w, written [0xAC00; 0xAC01] 8 w /\ zlen (encoding w) < 8) /\
  charstr_unicode_decompose (encoding [0xAC00; 0xAC01] ++ [0]) None (repeat 9 8) 0 8 =
    Ok (encoding [0x1100; 0x1161] ++ [0xEA; 0xB0], inr EOVERFLOW) /\
  breaks [0x65; 0xA9] [0x65].
Proof.
  split; [|split; [vm_compute; reflexivity|]].
  - intros (w & W & _). apply fit_written in W as (rs & E & _); [|scalars]. vm_compute in E. discriminate.
  - apply scanned_breaks. apply (Sc_cons [0x65] 0x65 [0xA9] [] false); [apply (Utf8Proofs.utf8_accepted 0x65); unfold scalar; lia|].
    apply Sc_bad. intros (bs & cp & u & E & P & _). destruct P as [a H|a b H|a b c H|a b c d H]; cbn [app] in E; apply (f_equal (fun l => hd 0 l)) in E; cbn [hd] in E; lia.
Qed.
