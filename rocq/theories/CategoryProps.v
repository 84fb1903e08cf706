(** C68: general categories. *)
From Verif Require Import Base CategoryModel CategorySpec CategoryData CategoryProofs.

(** UnicodeData.txt is a file of the format that [ucd_file] describes. *)
Lemma the_file : ucd_file 0 category_data /\ category_data <> [].
Proof.
  split; [|discriminate]. apply (ucd_fileb_ok (S (length category_data))); [constructor|].
  vm_compute. reflexivity.
Qed.

(** For every file of the format and every codepoint to which the file gives a category,
    the function returns that category. *)
Theorem C68_category_partial rows cp c :
  ucd_file 0 rows -> assigned rows cp c -> unicode_category rows cp = Ok c.
Proof.
  intros F A. assert (rows <> []) as Hne by (intros ->; destruct A as [[]|([] & ? & ? & ? & [=] & _)]).
  destruct (unicode_category_ok rows cp F Hne) as (r & E & H & _). rewrite E, (H c A). reflexivity.
Qed.
Print Assumptions C68_category_partial.

(** The same for the file of the repository. *)
Theorem C68_unicode_data_partial cp c :
  assigned category_data cp c -> unicode_category category_data cp = Ok c.
Proof. exact (C68_category_partial category_data cp c (proj1 the_file)). Qed.
Print Assumptions C68_unicode_data_partial.

(** A codepoint to which the file gives no category: if [next] is the first codepoint
    above it with a category, and [next + 1] has the same category, the function returns
    Cn. Otherwise the function wrongly returns the category of [next]. Above the last
    codepoint of the file it returns Cn. *)
Theorem C68_unassigned_exact_partial rows cp :
  ucd_file 0 rows -> rows <> [] -> unassigned rows cp ->
  (forall next c, next_assigned rows cp next c ->
     (assigned rows (next + 1) c -> unicode_category rows cp = Ok Cn) /\
     (~ assigned rows (next + 1) c -> unicode_category rows cp = Ok c)) /\
  ((forall n c, cp < n -> ~ assigned rows n c) -> unicode_category rows cp = Ok Cn).
Proof.
  intros F Hne U. destruct (unicode_category_ok rows cp F Hne) as (r & E & _ & H & H').
  rewrite E. split.
  - intros next c Hx. destruct (H next c U Hx) as [H1 H2]. split; intros X; f_equal; auto.
  - intros Hn. f_equal. apply H'. intros n c L A.
    destruct (Z.eq_dec n cp) as [->|]; [exact (U c A)|]. apply (Hn n c); [lia|exact A].
Qed.
Print Assumptions C68_unassigned_exact_partial.

(** UnicodeData.txt gives no category to U+0378, but the function returns Lm, the
    category of U+037A. *)
Theorem C68_unassigned_refuted :
  unassigned category_data 0x378 /\ unicode_category category_data 0x378 = Ok Lm.
Proof.
  destruct the_file as [F Hne].
  assert (unassigned category_data 0x378) as U by (apply (unassigned_cat _ _ F); vm_compute; reflexivity).
  split; [exact U|].
  destruct (C68_unassigned_exact_partial _ _ F Hne U) as [H _].
  apply (H 0x37A Lm).
  - split; [lia|]. split; [apply (assigned_cat _ _ F); vm_compute; reflexivity|].
    intros n Hn. assert (n = 0x379) as -> by lia. apply (unassigned_cat _ _ F). vm_compute. reflexivity.
  - intros A. apply (assigned_cat _ _ F) in A. revert A. vm_compute. discriminate.
Qed.
Print Assumptions C68_unassigned_refuted.

(** The hypotheses are met: U+0041 has a category, and so have the codepoints inside the
    range of CJK ideographs. *)
Example C68_example_assigned : assigned category_data 0x41 Lu /\ assigned category_data 0x5000 Lo.
Proof.
  destruct the_file as [F _].
  split; apply (assigned_cat _ _ F); vm_compute; reflexivity.
Qed.
(** A gap that is answered correctly: U+0380 is not assigned, U+0384 and U+0385 are Sk. *)
Example C68_example_gap : unassigned category_data 0x380 /\ unicode_category category_data 0x380 = Ok Cn.
Proof.
  destruct the_file as [F Hne].
  assert (unassigned category_data 0x380) as U by (apply (unassigned_cat _ _ F); vm_compute; reflexivity).
  split; [exact U|].
  destruct (C68_unassigned_exact_partial _ _ F Hne U) as [H _].
  apply (H 0x384 Sk).
  - split; [lia|]. split; [apply (assigned_cat _ _ F); vm_compute; reflexivity|].
    intros n Hn. assert (n = 0x381 \/ n = 0x382 \/ n = 0x383) as [-> | [-> | ->]] by lia;
      apply (unassigned_cat _ _ F); vm_compute; reflexivity.
  - apply (assigned_cat _ _ F). vm_compute. reflexivity.
Qed.
