(** Canonical equivalence, after the Unicode Standard 13.0, section 3.7 (D70) and 3.11. *)
From Verif Require Import Base UcdData NormSpec.

(** The least equivalence relation in which a character may be replaced by its canonical
    decomposition mapping, wherever it stands, and adjacent combining characters of
    different classes may be exchanged. *)
Inductive equivalent : list Z -> list Z -> Prop :=
| E_refl s : equivalent s s
| E_sym s t : equivalent s t -> equivalent t s
| E_trans s t u : equivalent s t -> equivalent t u -> equivalent s u
| E_mapped pre cp d post : In (cp, d) decomposition_data -> equivalent (pre ++ cp :: post) (pre ++ d ++ post)
| E_hangul pre cp l v t post : syllable l v t cp -> equivalent (pre ++ cp :: post) (pre ++ jamo l v t ++ post)
| E_order pre a b post ca cb : class a ca -> class b cb -> 0 < ca -> 0 < cb -> ca <> cb ->
    equivalent (pre ++ a :: b :: post) (pre ++ b :: a :: post).
