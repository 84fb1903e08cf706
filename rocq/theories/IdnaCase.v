(** Host names that differ in the case of ASCII letters: proofs. *)
From Verif Require Import Base CMem CharstrModel CharstrSpec CharstrProofs Utf8Model Utf8Spec Utf8Proofs UcdData NormModel NormSpec NormTables NormOrder NormBytes NormMain.
From Verif Require Import CategoryModel CategorySpec CategoryProofs CategoryData CategoryProps IdnaTabModel IdnaTabSpec IdnaData IdnaModel IdnaProofs.
From Verif Require Import PunyModel PunySpec PunyPass PunyHost PunyName PunyNfc PunyTop IdnaEncodeModel IdnaEncodeSpec IdnaEncodeProofs IdnaEncodeMore IdnaEncodeFate.
From Coq Require Import ZifyBool ZifyNat.

(** The table maps a capital letter to what it maps the small letter to. *)
Lemma image_lower c : image (ascii_lower c) = image c.
Proof.
  unfold ascii_lower. destruct (Z.leb_spec 65 c), (Z.leb_spec c 90); cbn [andb]; try reflexivity.
  assert (C : c = 65 \/ c = 66 \/ c = 67 \/ c = 68 \/ c = 69 \/ c = 70 \/ c = 71 \/ c = 72 \/ c = 73 \/ c = 74 \/ c = 75 \/ c = 76 \/ c = 77 \/
    c = 78 \/ c = 79 \/ c = 80 \/ c = 81 \/ c = 82 \/ c = 83 \/ c = 84 \/ c = 85 \/ c = 86 \/ c = 87 \/ c = 88 \/ c = 89 \/ c = 90) by lia.
  repeat (destruct C as [->|C]; [vm_compute; reflexivity|]). subst c. vm_compute. reflexivity.
Qed.
Lemma images_lower t : images image (map ascii_lower t) = images image t.
Proof. induction t as [|c t IH]; [reflexivity|]. cbn [map images]. rewrite image_lower, IH. reflexivity. Qed.
Lemma same_case t t' res res' : map ascii_lower t = map ascii_lower t' ->
  outcome spacing_mark image t res -> outcome spacing_mark image t' res' -> res = res'.
Proof.
  intros E O O'. apply (outcome_unique t); [exact O|]. unfold outcome in *. rewrite <- (images_lower t), E, (images_lower t'). exact O'.
Qed.

(** A name in another case has its codepoints in another case. *)
Lemma lower_ascii c : (0 <= c < 128 <-> 0 <= ascii_lower c < 128) /\ (128 <= c \/ 128 <= ascii_lower c -> ascii_lower c = c).
Proof. unfold ascii_lower. destruct (Z.leb_spec 65 c), (Z.leb_spec c 90); cbn [andb]; lia. Qed.
Lemma lower_high a b : 128 <= b -> ascii_lower a = ascii_lower b -> a = b.
Proof. intros B E. pose proof (lower_ascii a) as (_ & A). pose proof (proj2 (lower_ascii b) (or_introl B)) as K. rewrite K in E. rewrite E in A. symmetry. apply A. right. exact B. Qed.
Lemma accepted_case bs cp q : accepted bs cp -> map ascii_lower q = map ascii_lower bs -> exists cp', accepted q cp' /\ ascii_lower cp' = ascii_lower cp.
Proof.
  intros (P & S) E. assert (H : bs = q \/ exists a, bs = [a] /\ cp = a /\ 0 <= a < 128).
  { destruct P as [a A|a b A B|a b c A B C|a b c d A B C D].
    - right. exists a. auto.
    - left. destruct q as [|x [|y [|z q]]]; try discriminate. cbn [map] in E. repeat (apply cons_inj in E; destruct E as (? & E)).
      repeat match goal with K : ascii_lower _ = ascii_lower _ |- _ => apply lower_high in K; [|lia] end. subst. reflexivity.
    - left. destruct q as [|x [|y [|z [|u q]]]]; try discriminate. cbn [map] in E. repeat (apply cons_inj in E; destruct E as (? & E)).
      repeat match goal with K : ascii_lower _ = ascii_lower _ |- _ => apply lower_high in K; [|lia] end. subst. reflexivity.
    - left. destruct q as [|x [|y [|z [|u [|v q]]]]]; try discriminate. cbn [map] in E. repeat (apply cons_inj in E; destruct E as (? & E)).
      repeat match goal with K : ascii_lower _ = ascii_lower _ |- _ => apply lower_high in K; [|lia] end. subst. reflexivity. }
  destruct H as [<-|(a & -> & -> & A)]; [exists cp; split; [split; assumption|reflexivity]|].
  destruct q as [|x [|y q]]; try discriminate. cbn [map] in E. apply cons_inj in E. destruct E as (E & _). exists x. split; [|exact E].
  assert (X : 0 <= x < 128) by (apply (proj1 (lower_ascii x)); rewrite E; apply (proj1 (lower_ascii a)); exact A). split; [constructor; exact X|left; lia].
Qed.
Lemma encodes_case s cps s' : encodes s cps -> map ascii_lower s' = map ascii_lower s -> exists cps', encodes s' cps' /\ map ascii_lower cps' = map ascii_lower cps.
Proof.
  intros (parts & -> & F). revert s'. induction F as [|bs cp parts cps A F IH]; intros q E; cbn [concat] in E.
  - apply map_eq_nil in E. subst q. exists []. split; [exists []; split; [reflexivity|constructor]|reflexivity].
  - rewrite map_app in E. apply map_eq_app in E. destruct E as (q1 & q2 & -> & E1 & E2). destruct (accepted_case bs cp q1 A E1) as (c & Ac & Lc).
    destruct (IH q2 E2) as (cs & (ps & -> & Fs) & Ls). exists (c :: cs). split; [exists (q1 :: ps); split; [reflexivity|constructor; assumption]|]. cbn [map]. rewrite Lc, Ls. reflexivity.
Qed.
Lemma class_lower c : ccc (ascii_lower c) = ccc c /\ dis 1 (ascii_lower c) = dis 1 c /\ dis 2 (ascii_lower c) = dis 2 c.
Proof.
  unfold ascii_lower. destruct (Z.leb_spec 65 c), (Z.leb_spec c 90); cbn [andb]; try (split; [reflexivity|split; reflexivity]).
  assert (C : c = 65 \/ c = 66 \/ c = 67 \/ c = 68 \/ c = 69 \/ c = 70 \/ c = 71 \/ c = 72 \/ c = 73 \/ c = 74 \/ c = 75 \/ c = 76 \/ c = 77 \/
    c = 78 \/ c = 79 \/ c = 80 \/ c = 81 \/ c = 82 \/ c = 83 \/ c = 84 \/ c = 85 \/ c = 86 \/ c = 87 \/ c = 88 \/ c = 89 \/ c = 90) by lia.
  repeat (destruct C as [->|C]; [vm_compute; split; [reflexivity|split; reflexivity]|]). subst c. vm_compute. split; [reflexivity|split; reflexivity].
Qed.
Lemma detect_lower cps ok : forall last result, detect (map ascii_lower cps) ok 1 2 last result = detect cps ok 1 2 last result.
Proof.
  induction cps as [|c cps IH]; intros last result; [reflexivity|]. cbn [map detect]. destruct (class_lower c) as (-> & -> & ->). rewrite IH. reflexivity.
Qed.
Lemma composed_detect s q cps : text s -> encodes s cps -> charstr_unicode_canonically_composed (s ++ 0 :: q) None = Ok (detect cps true 1 2 0 0 =? 0).
Proof.
  intros T E. unfold charstr_unicode_canonically_composed, charstr_detect_unicode_normal_form.
  rewrite (detect_loop_ok s cps true (proj1 (encodes_scanned _ _) E)); [reflexivity|split; [exact T|right; exists [], q; split; [reflexivity|split; [constructor|left; reflexivity]]]|rewrite app_length; lia].
Qed.
Lemma composed_valid s q : text s -> charstr_unicode_canonically_composed (s ++ 0 :: q) None = Ok true -> exists cps, encodes s cps.
Proof.
  intros T E. destruct (detect_nfc s (0 :: q) None) as (b & Eb & H); [split; [exact T|right; exists [], q; split; [reflexivity|split; [constructor|left; reflexivity]]]|]. rewrite E in Eb. injection Eb as <-.
  destruct (H eq_refl) as (cps & K & _). exists cps. exact K.
Qed.
Lemma ascii_case s s' : text s' -> map ascii_lower s' = map ascii_lower s -> ascii s -> ascii s'.
Proof.
  intros T E A. revert s' T E. induction A as [|c s C A IH]; intros s' T E; [apply map_eq_nil in E; subst; constructor|].
  destruct s' as [|x s']; [discriminate|]. cbn [map] in E. apply cons_inj in E. destruct E as (E & E'). constructor; [|exact (IH s' (Forall_inv_tail T) E')].
  pose proof (Forall_inv T). cbv beta in *. destruct (Z_lt_ge_dec x 128) as [L|L]; [exact L|]. pose proof (lower_high c x ltac:(lia) (eq_sym E)). lia.
Qed.
Lemma composed_case junk r h errno s q junk' r' h' errno' s' q' : zlen (r_ccs r) = 100 -> zlen (r_ccs r') = 100 -> text s -> text s' -> 3 * zlen s + 1 < 2 ^ 64 ->
  map ascii_lower s = map ascii_lower s' -> charstr_unicode_canonically_composed (s ++ 0 :: q) None = Ok true ->
  charstr_idna_encode junk r h errno (s ++ 0 :: q) = charstr_idna_encode junk' r' h' errno' (s' ++ 0 :: q') /\
  charstr_unicode_canonically_composed (s' ++ 0 :: q') None = Ok true.
Proof.
  intros R R' T T' L M C. destruct (composed_valid s q T C) as (cps & E). destruct (encodes_case s cps s' E (eq_sym M)) as (cps' & E' & M').
  rewrite (composed_detect s q cps T E) in C. injection C as C. assert (C' : (detect cps' true 1 2 0 0 =? 0) = true).
  { rewrite <- (detect_lower cps'), M', (detect_lower cps). exact C. }
  assert (L' : zlen s' = zlen s) by (apply (f_equal zlen) in M; unfold zlen in *; rewrite !map_length in M; lia).
  split; [|rewrite (composed_detect s' q' cps' T' E'), C'; reflexivity].
  destruct (ascii_dec s) as [A|A].
  - pose proof (ascii_case s s' T' (eq_sym M) A) as A'. unfold charstr_idna_encode. pose proof (zlen_nonneg s).
    rewrite (idna_ascii idna_library spacing_mark real_category junk image image_ok r h errno s q T A ltac:(lia)).
    rewrite (idna_ascii idna_library spacing_mark real_category junk' image image_ok r' h' errno' s' q' T' A' ltac:(lia)). rewrite M. reflexivity.
  - assert (A' : ~ ascii s') by (intros K; apply A; exact (ascii_case s' s T M K)).
    pose proof (idna_fate junk r h errno R s cps true q T A L (proj1 (encodes_scanned _ _) E)) as F.
    pose proof (idna_fate junk' r' h' errno' R' s' cps' true q' T' A' ltac:(lia) (proj1 (encodes_scanned _ _) E')) as F'.
    unfold fate in F, F'. rewrite C in F. rewrite C' in F'. exact (same_case cps cps' _ _ (eq_sym M') F F').
Qed.
