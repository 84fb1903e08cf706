(** Unicode normalization forms D and C, after the Unicode Standard 13.0, section
    3.11 and 3.12, and UAX #15, over the data files in unicode/. *)
From Verif Require Import Base UcdData CharstrSpec Utf8Spec.

(** The canonical combining class of a codepoint is [c] (the data lists those that
    are not 0). *)
Definition class (cp c : Z) : Prop := In (cp, c) ccc_data \/ (c = 0 /\ forall d, ~ In (cp, d) ccc_data).

(** Starters have class 0. *)
Definition starter (cp : Z) : Prop := class cp 0.

(** * Hangul (section 3.12): syllable [s] is made of [l], [v] and [t]; [t] is none
    when its index is 0. *)
Definition syllable (l v t s : Z) : Prop :=
  0 <= l < 19 /\ 0 <= v < 21 /\ 0 <= t < 28 /\ s = 0xAC00 + (l * 21 + v) * 28 + t.
Definition jamo (l v t : Z) : list Z :=
  [0x1100 + l; 0x1161 + v] ++ if t =? 0 then [] else [0x11A7 + t].

(** * Full canonical decomposition (D68): the mappings of the data are applied
    until none applies. *)
Inductive decomposed : Z -> list Z -> Prop :=
| D_self cp : (forall d, ~ In (cp, d) decomposition_data) -> (forall l v t, ~ syllable l v t cp) -> decomposed cp [cp]
| D_hangul cp l v t : syllable l v t cp -> decomposed cp (jamo l v t)
| D_mapped cp d r : In (cp, d) decomposition_data -> decomposed_all d r -> decomposed cp r
with decomposed_all : list Z -> list Z -> Prop :=
| DA_nil : decomposed_all [] []
| DA_cons cp cps r rs : decomposed cp r -> decomposed_all cps rs -> decomposed_all (cp :: cps) (r ++ rs).

(** * Canonical ordering (D108, D109): adjacent characters A and B with
    ccc(A) > ccc(B) > 0 are exchanged until there are none. *)
Inductive exchange : list Z -> list Z -> Prop :=
| Exchange pre a b post ca cb : class a ca -> class b cb -> ca > cb -> cb > 0 ->
    exchange (pre ++ a :: b :: post) (pre ++ b :: a :: post).
Inductive exchanges : list Z -> list Z -> Prop :=
| Ex_refl s : exchanges s s
| Ex_step s t u : exchange s t -> exchanges t u -> exchanges s u.
Definition ordered (s : list Z) : Prop := forall t, ~ exchange s t.

(** Normalization form D (D118) *)
Definition nfd (s t : list Z) : Prop := exists u, decomposed_all s u /\ exchanges u t /\ ordered t.

(** * Composition *)

(** Primary composites (D114): the pairs of the data that are not excluded from
    composition (neither by the list of exclusions nor because a non-starter is
    involved), and Hangul. *)
Inductive primary_composite : Z -> Z -> Z -> Prop :=
| PC_mapped l c p : In (p, [l; c]) decomposition_data -> ~ In p exclusion_data -> starter l -> starter p ->
    primary_composite l c p
| PC_lv l v p : syllable l v 0 p -> primary_composite (0x1100 + l) (0x1161 + v) p
| PC_lvt l v t lv p : syllable l v 0 lv -> syllable l v t p -> t <> 0 -> primary_composite lv (0x11A7 + t) p.

(** In [pre ++ l :: mid] followed by [c], [l] is the last starter, and [c] is not
    blocked from it (D115). *)
Definition not_blocked (l : Z) (mid : list Z) (c : Z) : Prop :=
  starter l /\ forall b cb cc, In b mid -> class b cb -> class c cc -> 0 < cb < cc.

(** The canonical composition algorithm (D117): [compose d s r] if [r] is the
    result after [d] has been processed and [s] remains. *)
Inductive compose : list Z -> list Z -> list Z -> Prop :=
| C_end d : compose d [] d
| C_join pre l mid c p s r : not_blocked l mid c -> primary_composite l c p ->
    compose (pre ++ p :: mid) s r -> compose (pre ++ l :: mid) (c :: s) r
| C_keep d c s r :
    (forall pre l mid p, d = pre ++ l :: mid -> not_blocked l mid c -> ~ primary_composite l c p) ->
    compose (d ++ [c]) s r -> compose d (c :: s) r.

(** Normalization form C (D120) *)
Definition nfc (s t : list Z) : Prop := exists u, nfd s u /\ compose [] u t.

(** * Strings: [encodes s cps] if the bytes [s] are accepted as an encoding of the
    codepoints [cps]. *)
Definition encodes (s : list Z) (cps : list Z) : Prop :=
  exists parts, s = concat parts /\ Forall2 accepted parts cps.

(** The UTF-8 encoding of [cps] *)
Definition encoding (cps : list Z) : list Z := flat_map utf8 cps.

(** The input [s] is followed by [q] in its block, and it ends at [end_] (given as
    the number of bytes from there to the end of the block) or at a NUL. *)
Definition input (s q : list Z) (end_ : option Z) : Prop :=
  text s /\
  (end_ = Some (zlen q) \/
   exists r1 r2, q = 0 :: r1 ++ r2 /\ bytes r1 /\ (end_ = None \/ end_ = Some (zlen r2))).

(** No Hangul syllable *)
Definition no_syllable (cps : list Z) : Prop := forall cp l v t, In cp cps -> ~ syllable l v t cp.

(** Some starter is followed by more than 100 combining characters. *)
Definition crowded (s : list Z) : Prop :=
  exists pre l mid post, s = pre ++ l :: mid ++ post /\ starter l /\ Forall (fun c => ~ starter c) mid /\ zlen mid > 100.
