(** Properties of the cost of charstr_unicode_decompose (C121) *)
From Verif Require Import Base CMem CharstrModel CharstrSpec Utf8Model Utf8Spec UcdData NormModel NormSpec NormTables NormOrder NormBytes NormCostModel NormCost.
From Coq Require Import ZifyNat.

(** The functions with costs give the results of those without. *)
Theorem C121_same : forall s e b output output_end,
  charstr_unicode_decompose s e b output output_end = (x <- charstr_unicode_decompose_cost s e b output output_end ;; Ok (fst x)).
Proof. intros s e b output output_end. symmetry. exact (decompose_erase s e b output output_end). Qed.
Print Assumptions C121_same.

(** C121: the cost is not linear: an a with n times U+0301 and n times U+0323, of 4n + 1 bytes,
    costs at least 2n^2. *)
Theorem C121_refuted_family : forall n, exists s b k, zlen s = 4 * Z.of_nat n + 1 /\ input s [0] None /\
  encodes s (0x61 :: repeat 0x301 n ++ repeat 0x323 n) /\
  charstr_unicode_decompose_cost (s ++ [0]) None (repeat 0 (4 * n + 2)) 0 (4 * Z.of_nat n + 2) = Ok (b, inl (4 * Z.of_nat n + 1), k) /\
  2 * Z.of_nat n * Z.of_nat n <= k.
Proof. exact hard_cost. Qed.
Print Assumptions C121_refuted_family.
Theorem C121_refuted : forall c, exists s free b r k, input s [0] None /\
  charstr_unicode_decompose_cost (s ++ [0]) None free 0 (zlen free) = Ok (b, r, k) /\ c * (zlen s + zlen free) < k.
Proof.
  intros c. set (n := S (Z.to_nat (8 * c))). destruct (C121_refuted_family n) as (s & b & k & L & I & _ & R & K).
  exists s, (repeat 0 (4 * n + 2)), b, (inl (4 * Z.of_nat n + 1)), k. split; [exact I|].
  assert (Lf : zlen (repeat 0 (4 * n + 2)) = 4 * Z.of_nat n + 2) by (unfold zlen; rewrite repeat_length; lia). rewrite Lf. split; [exact R|].
  rewrite L. assert (N : Z.of_nat n >= 1 /\ Z.of_nat n >= 8 * c + 1) by (unfold n; lia). destruct N as [N1 N2]. clearbody n. destruct (Z_le_gt_dec c 0); nia.
Qed.
Print Assumptions C121_refuted.
(** It is at most quadratic in the length of the string, whatever the string contains and
    whether it fits in the buffer or not. *)
Theorem C121_quadratic_partial : forall s q e pre free post, input s q e ->
  exists b r k, charstr_unicode_decompose_cost (s ++ q) e (pre ++ free ++ post) (zlen pre) (zlen pre + zlen free) = Ok (b, r, k) /\
    0 <= k <= 18 * zlen s * zlen s + 38 * zlen s.
Proof. exact decompose_most. Qed.
Print Assumptions C121_quadratic_partial.
(** It is linear for strings without long sequences of combining characters: if no more than m
    characters other than starters follow each other in the decomposition, the constant is
    24m + 38. *)
Theorem C121_linear_partial : forall m s cps t q e pre free post, input s q e -> encodes s cps -> nfd cps t -> 0 <= m ->
  (forall before ns after, t = before ++ ns ++ after -> Forall (fun c => ~ starter c) ns -> zlen ns <= m) ->
  exists b r k, charstr_unicode_decompose_cost (s ++ q) e (pre ++ free ++ post) (zlen pre) (zlen pre + zlen free) = Ok (b, r, k) /\
    0 <= k <= (24 * m + 38) * zlen s.
Proof. exact decompose_linear. Qed.
Print Assumptions C121_linear_partial.
(** The decomposition of two letters U+00E4 meets the condition with m = 1. *)
Example C121_linear_example : nfd [0xE4; 0xE4] [0x61; 0x308; 0x61; 0x308] /\
  forall before ns after, [0x61; 0x308; 0x61; 0x308] = before ++ ns ++ after -> Forall (fun c => ~ starter c) ns -> zlen ns <= 1.
Proof.
  split; [apply nfd_iff; vm_compute; reflexivity|]. intros before ns after E F.
  assert (S : starter 0x61) by (apply class_ccc; vm_compute; reflexivity).
  destruct ns as [|x [|y ns]]; [cbn; lia|cbn; lia|]. exfalso. inversion_clear F as [|? ? Fx F']. inversion_clear F' as [|? ? Fy _].
  assert (X : x = 0x61 \/ y = 0x61).
  { destruct before as [|b1 before]; cbn [app] in E; [injection E; auto|]. destruct before as [|b2 before]; cbn [app] in E; [injection E; auto|].
    destruct before as [|b3 before]; cbn [app] in E; [injection E; auto|]. destruct before as [|b4 before]; cbn [app] in E; [discriminate|].
    destruct before; discriminate. }
  destruct X as [->| ->]; contradiction.
Qed.
Example C121_example : input [0x61; 0xCC; 0x81; 0xCC; 0xA3] [0] None /\
  charstr_unicode_decompose_cost [0x61; 0xCC; 0x81; 0xCC; 0xA3; 0] None (repeat 9 7) 0 7 = Ok ([0x61; 0xCC; 0xA3; 0xCC; 0x81; 0; 9], inl 5, 16).
Proof.
  split; [|vm_compute; reflexivity]. split; [repeat constructor; lia|]. right. exists [], []. split; [reflexivity|]. split; [constructor|auto].
Qed.
