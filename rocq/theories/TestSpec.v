(** What the data of the test programs has to be. *)
From Verif Require Import Base CharstrSpec Utf8Spec Base64Spec NormModel NormSpec TestMoreModel.

(** No two of the keys are equal. *)
Definition different (f : Z -> Z -> Z) (xs : list Z) : Prop := ForallOrdPairs (fun a b => f a b <> 0) xs.

(** The row of the table for the string [d]: it and its Base64 encoding, both with their NULs *)
Definition row (d : list Z) : list Z * list Z := (d ++ [0], base64 43 47 d ++ [0]).

(** The sizes of the arrays are as declared, whatever is in them. *)
Definition sound (l : leftovers) : Prop :=
  zlen (l_nfd_output l) = 1000 /\ zlen (l_nfc_output l) = 1000 /\ zlen (r_ccs (l_recomposer l)) = 100.

(** Codepoints that can be in a C string, and that string *)
Definition codepoints (cps : list Z) : Prop := Forall scalar cps /\ ~ In 0 cps.
Definition cstring (cps : list Z) : list Z := encoding cps ++ [0].

(** The normal forms fit the arrays: 1000 bytes, and 100 combining characters after a starter. *)
Definition fits (cps : list Z) : Prop :=
  (exists t, nfd cps t /\ zlen (encoding t) < 1000) /\ ~ (exists t, nfc cps t /\ crowded t).
