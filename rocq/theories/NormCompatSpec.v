(** Unicode normalization forms KD and KC, after the Unicode Standard 13.0, section 3.11,
    and UAX #15, over the data files in unicode/. *)
From Verif Require Import Base UcdData CompatData NormSpec.

(** * Full compatibility decomposition (D65): the canonical and compatibility mappings of
    the data are applied until none applies. *)
Definition mapping (cp : Z) (d : list Z) : Prop := In (cp, d) decomposition_data \/ In (cp, d) compatibility_data.
Inductive kdecomposed : Z -> list Z -> Prop :=
| KD_self cp : (forall d, ~ mapping cp d) -> (forall l v t, ~ syllable l v t cp) -> kdecomposed cp [cp]
| KD_hangul cp l v t : syllable l v t cp -> kdecomposed cp (jamo l v t)
| KD_mapped cp d r : mapping cp d -> kdecomposed_all d r -> kdecomposed cp r
with kdecomposed_all : list Z -> list Z -> Prop :=
| KDA_nil : kdecomposed_all [] []
| KDA_cons cp cps r rs : kdecomposed cp r -> kdecomposed_all cps rs -> kdecomposed_all (cp :: cps) (r ++ rs).

(** Normalization forms KD (D119) and KC (D121) *)
Definition nfkd (s t : list Z) : Prop := exists u, kdecomposed_all s u /\ exchanges u t /\ ordered t.
Definition nfkc (s t : list Z) : Prop := exists u, nfkd s u /\ compose [] u t.
