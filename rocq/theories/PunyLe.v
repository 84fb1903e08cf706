(** The encoder uses its library only for the codepoints it meets: a library that knows a
    few codepoints gives the same results as one that knows all. *)
From Verif Require Import Base CMem CharstrModel Utf8Model NormModel CategoryModel PunyModel.

Definition le {A} (x y : res A) : Prop := x = UB \/ x = y.
Lemma le_refl {A} (x : res A) : le x x.
Proof. right. reflexivity. Qed.
Lemma le_bind {A B} (x y : res A) (f g : A -> res B) : le x y -> (forall a, le (f a) (g a)) -> le (bind x f) (bind y g).
Proof. intros [->| ->] H; [left; reflexivity|]. destruct y; cbn [bind]; [apply H|apply le_refl..]. Qed.

Record lib_le (l1 l2 : library) : Prop := {
  le_valid : forall c, le (is_valid l1 c) (is_valid l2 c);
  le_deviation : forall c, le (is_deviation l1 c) (is_deviation l2 c);
  le_ignored : forall c, le (is_ignored l1 c) (is_ignored l2 c);
  le_mapped : forall c, le (is_mapped l1 c) (is_mapped l2 c);
  le_mapping : forall c, le (mapping l1 c) (mapping l2 c);
  le_category : forall c, le (unicode_category_of l1 c) (unicode_category_of l2 c) }.

Section Le.
Variables l1 l2 : library.
Hypothesis LE : lib_le l1 l2.

Ltac step :=
  match goal with
  | |- le ?x ?x => apply le_refl
  | |- le (bind _ _) (bind _ _) => apply le_bind; [|intros]
  | |- le (if ?b then _ else _) (if ?b then _ else _) => destruct b
  | |- le (match ?x with _ => _ end) (match ?x with _ => _ end) => destruct x
  | |- le (let '_ := ?x in _) (let '_ := ?x in _) => destruct x
  end.

Lemma pass1_loop_le fuel : forall p end_ first n h ascii nonascii count,
  le (pass1_loop l1 fuel p end_ first n h ascii nonascii count) (pass1_loop l2 fuel p end_ first n h ascii nonascii count).
Proof.
  induction fuel as [|fuel IH]; intros; [apply le_refl|]. cbn [pass1_loop]. repeat first [apply IH|apply (le_category _ _ LE)|step].
Qed.
Lemma pass1_le p end_ a na : le (punycode_encode_pass1 l1 p end_ a na) (punycode_encode_pass1 l2 p end_ a na).
Proof. unfold punycode_encode_pass1. repeat first [apply pass1_loop_le|step]. Qed.
Lemma punycode_encode_le junk input end_ b o size : le (punycode_encode l1 junk input end_ b o size) (punycode_encode l2 junk input end_ b o size).
Proof. unfold punycode_encode. repeat first [apply pass1_le|step]. Qed.
Lemma encode_loop_le junk fuel : forall p end_ e q size, le (encode_loop l1 junk fuel p end_ e q size) (encode_loop l2 junk fuel p end_ e q size).
Proof.
  induction fuel as [|fuel IH]; intros; [apply le_refl|]. cbn [encode_loop]. repeat first [apply IH|apply punycode_encode_le|step].
Qed.
Lemma encode_filtered_le junk s end_ : le (encode_filtered l1 junk s end_) (encode_filtered l2 junk s end_).
Proof. unfold encode_filtered. repeat first [apply encode_loop_le|step]. Qed.
Lemma nfc_loop_le fuel : forall p end_ w q e, le (nfc_loop l1 fuel p end_ w q e) (nfc_loop l2 fuel p end_ w q e).
Proof.
  induction fuel as [|fuel IH]; intros; [apply le_refl|]. cbn [nfc_loop].
  repeat first [apply IH|apply (le_valid _ _ LE)|apply (le_deviation _ _ LE)|apply (le_ignored _ _ LE)|apply (le_mapped _ _ LE)|apply (le_mapping _ _ LE)|step].
Qed.
Lemma encode_nfc_le junk s end_ : le (encode_nfc l1 junk s end_) (encode_nfc l2 junk s end_).
Proof. unfold encode_nfc. repeat first [apply nfc_loop_le|apply encode_filtered_le|step]. Qed.
Lemma encode_nfd_le junk r h errno s end_ : le (encode_nfd l1 junk r h errno s end_) (encode_nfd l2 junk r h errno s end_).
Proof. unfold encode_nfd. repeat first [apply encode_nfc_le|step]. Qed.
Lemma idna_encode_le junk r h errno s : le (idna_encode l1 junk r h errno s) (idna_encode l2 junk r h errno s).
Proof. unfold idna_encode. repeat first [apply encode_nfc_le|apply encode_nfd_le|step]. Qed.
End Le.
