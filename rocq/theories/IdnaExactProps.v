(** C109: the result of charstr_idna_encode for every name that is not ASCII (C66 is about
    those that are). *)
From Verif Require Import Base CMem CharstrModel CharstrSpec CharstrProofs Utf8Model Utf8Spec Utf8Proofs UcdData NormModel NormSpec NormOrder NormBytes NormMain.
From Verif Require Import CategoryModel CategorySpec CategoryData IdnaTabModel IdnaTabSpec IdnaData IdnaModel IdnaProofs.
From Verif Require Import PunyModel PunySpec PunyTop IdnaEncodeModel IdnaEncodeSpec IdnaEncodeProofs IdnaEncodeProps IdnaEncodeMoreProps IdnaExactSpec IdnaExact.
From Coq Require Import ZifyBool ZifyNat.

(** In all theorems [junk], [r] and [h] are the contents of uninitialized memory; [s] is the
    argument up to its NUL, [q] what follows it in memory. *)
Theorem C109_encoded : forall junk r h errno s q out,
  text s -> ~ ascii s -> 3 * zlen s + 1 < 2 ^ 64 -> zlen (r_ccs r) = 100 ->
  charstr_idna_encode junk r h errno (s ++ 0 :: q) = Ok (Some out) <->
  exists m name, prepared_name s m /\ encoded_name m name /\ out = name ++ [0].
Proof. intros junk r h errno s q out T A L Rs. exact (proj1 (idna_exact junk r h errno Rs s q T A L) out). Qed.
Print Assumptions C109_encoded.

Theorem C109_aborts : forall junk r h errno s q,
  text s -> ~ ascii s -> 3 * zlen s + 1 < 2 ^ 64 -> zlen (r_ccs r) = 100 ->
  charstr_idna_encode junk r h errno (s ++ 0 :: q) = Abort <-> exists m, prepared_name s m /\ long_label m.
Proof. intros junk r h errno s q T A L Rs. exact (proj1 (proj2 (idna_exact junk r h errno Rs s q T A L))). Qed.
Print Assumptions C109_aborts.

Theorem C109_undefined : forall junk r h errno s q,
  text s -> ~ ascii s -> 3 * zlen s + 1 < 2 ^ 64 -> zlen (r_ccs r) = 100 ->
  charstr_idna_encode junk r h errno (s ++ 0 :: q) = UB <-> prepared_name s [].
Proof. intros junk r h errno s q T A L Rs. exact (proj1 (proj2 (proj2 (idna_exact junk r h errno Rs s q T A L)))). Qed.
Print Assumptions C109_undefined.

(** In all other cases the result is NULL. *)
Theorem C109_refused : forall junk r h errno s q,
  text s -> ~ ascii s -> 3 * zlen s + 1 < 2 ^ 64 -> zlen (r_ccs r) = 100 ->
  charstr_idna_encode junk r h errno (s ++ 0 :: q) = Ok None <->
  forall m, prepared_name s m -> m <> [] /\ ~ long_label m /\ forall name, ~ encoded_name m name.
Proof.
  intros junk r h errno s q T A L Rs. destruct (idna_exact junk r h errno Rs s q T A L) as (K1 & K2 & K3 & K4). split.
  - intros E m P. rewrite E in *. split; [intros ->; apply K3 in P; discriminate|]. split.
    + intros Lg. assert (Ok None = Abort :> res (option (list Z))) as X by (apply K2; eauto). discriminate.
    + intros name En. assert (Ok None = Ok (Some (name ++ [0]))) as X by (apply K1; eauto). discriminate.
  - intros N. destruct (charstr_idna_encode junk r h errno (s ++ 0 :: q)) as [[out|]| | |] eqn:E; [|reflexivity| | |contradiction].
    + destruct (proj1 (K1 out) eq_refl) as (m & name & P & En & _). destruct (proj2 (proj2 (N m P)) name En).
    + destruct (proj1 (N [] (proj1 K3 eq_refl)) eq_refl).
    + destruct (proj1 K2 eq_refl) as (m & P & Lg). destruct (proj1 (proj2 (N m P)) Lg).
Qed.
Print Assumptions C109_refused.

(** There is at most one such [m]. *)
Theorem C109_unique : forall s m m', prepared_name s m -> prepared_name s m' -> m = m'.
Proof. exact prepared_name_unique. Qed.
Print Assumptions C109_unique.

(** All three cases exist. *)
Example C109_example :
  (exists m, prepared_name [0xC3; 0x84; 0x2E; 0xC3; 0x9F] m /\
     encoded_name m [0x78; 0x6E; 0x2D; 0x2D; 0x34; 0x63; 0x61; 0x2E; 0x78; 0x6E; 0x2D; 0x2D; 0x7A; 0x63; 0x61]) /\
  (exists m, prepared_name (repeat 0x61 64 ++ [0x2E; 0xC3; 0xA4]) m /\ long_label m) /\
  prepared_name [0xC2; 0xAD] [] /\
  ~ (exists m, prepared_name eighth_note m /\ exists name, encoded_name m name).
Proof.
  assert (NA : forall s, forallb (fun c => c <? 128) s = false -> ~ ascii s) by (intros s F K; apply ascii_b_ok in K; congruence).
  split; [|split; [|split]].
  - destruct (proj1 (C109_encoded junk1 r1 h1 0 [0xC3; 0x84; 0x2E; 0xC3; 0x9F] [1] _ ltac:(is_text) ltac:(apply NA; reflexivity) ltac:(reflexivity) eq_refl) (proj1 C62_example)) as (m & name & P & E & O).
    exists m. split; [exact P|].
    replace [0x78; 0x6E; 0x2D; 0x2D; 0x34; 0x63; 0x61; 0x2E; 0x78; 0x6E; 0x2D; 0x2D; 0x7A; 0x63; 0x61] with name; [exact E|].
    apply (app_inv_tail [0]). rewrite <- O. reflexivity.
  - assert (text (repeat 0x61 64 ++ [0x2E; 0xC3; 0xA4])) as T by (apply Forall_app; split; [apply Forall_forall; intros x I; apply repeat_spec in I; subst x; lia|is_text]).
    pose proof C64_refuted_abort as K. replace (repeat 0x61 64 ++ [0x2E; 0xC3; 0xA4; 0]) with ((repeat 0x61 64 ++ [0x2E; 0xC3; 0xA4]) ++ 0 :: []) in K by (rewrite <- app_assoc; reflexivity).
    exact (proj1 (C109_aborts junk1 r1 h1 0 _ [] T ltac:(apply NA; reflexivity) ltac:(reflexivity) eq_refl) K).
  - exact (proj1 (C109_undefined junk1 r1 h1 0 [0xC2; 0xAD] [] ltac:(is_text) ltac:(apply NA; reflexivity) ltac:(reflexivity) eq_refl) C64_refuted_undefined).
  - intros (m & P & name & E).
    destruct (proj2 (proj2 (proj1 (C109_refused junk1 r1 h1 0 eighth_note [] ltac:(is_text) ltac:(apply NA; reflexivity) ltac:(reflexivity) eq_refl) (proj1 C76_refuted_room) m P)) name E).
Qed.
