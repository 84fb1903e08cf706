(** What is written by charstr_unicode_decompose, codepoint by codepoint, into a buffer that
    may be too small. *)
From Verif Require Import Base CharstrSpec Utf8Spec UcdData NormSpec.

(** [w] is written for [cps] when there are [room] bytes: the decomposition of each codepoint
    if it fits; otherwise, if it is a Hangul syllable and it fits, the syllable itself. *)
Inductive written : list Z -> Z -> list Z -> Prop :=
| W_nil room : written [] room []
| W_decomposed cp d cps w room : decomposed cp d -> zlen (encoding d) <= room ->
    written cps (room - zlen (encoding d)) w -> written (cp :: cps) room (d ++ w)
| W_syllable cp d cps w room l v t : syllable l v t cp -> decomposed cp d -> zlen (encoding d) > room -> zlen (encoding [cp]) <= room ->
    written cps (room - zlen (encoding [cp])) w -> written (cp :: cps) room (cp :: w).

(** [s] is a valid part, which encodes [cps], and something that does not begin with a valid
    sequence. *)
Definition breaks (s cps : list Z) : Prop :=
  exists a b, s = a ++ b /\ encodes a cps /\ b <> [] /\ ~ exists bs cp u, b = bs ++ u /\ accepted bs cp.
