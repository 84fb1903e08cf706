(** Properties of the cost of charstr_unicode_recompose (C122) *)
From Verif Require Import Base CMem CharstrModel CharstrSpec Utf8Model Utf8Spec NormModel NormSpec NormBytes RecompCostModel RecompCost.

(** The functions with costs give the results of those without. *)
Theorem C122_same : forall r h s e b output output_end errno,
  charstr_unicode_recompose r h s e b output output_end errno = (x <- charstr_unicode_recompose_cost r h s e b output output_end errno ;; Ok (fst x)).
Proof. intros r h s e b output output_end errno. symmetry. exact (recompose_erase r h s e b output output_end errno). Qed.
Print Assumptions C122_same.
(** C122: the cost is linear in the length of the string, whatever the string contains, whether
    it is UTF-8 or not, and whether it fits in the buffer or not. *)
Theorem C122_linear : forall s q e pre free post r h errno, input s q e -> zlen (r_ccs r) = 100 ->
  exists b o k, charstr_unicode_recompose_cost r h (s ++ q) e (pre ++ free ++ post) (zlen pre) (zlen pre + zlen free) errno = Ok (b, o, k) /\
    0 <= k <= 102 * zlen s.
Proof. exact recompose_most. Qed.
Print Assumptions C122_linear.
(** An e with two accents, the first of which does not block the second. *)
Example C122_example : input [0x65; 0xCC; 0xB8; 0xCC; 0x81; 0x61] [0] None /\
  charstr_unicode_recompose_cost (mk_recomposer RECOMPOSER_TERMINATED 5 (repeat 8 100) 6 7) (mk_hangul HANGUL_RECOMPOSER_STARTED 5)
    [0x65; 0xCC; 0xB8; 0xCC; 0x81; 0x61; 0] None (repeat 9 8) 0 8 0 = Ok ([0xC3; 0xA9; 0xCC; 0xB8; 0x61; 0; 9; 9], inl 5, 9).
Proof.
  split; [|vm_compute; reflexivity]. split; [repeat constructor; lia|]. right. exists [], []. split; [reflexivity|]. split; [constructor|auto].
Qed.
